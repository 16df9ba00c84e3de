(** Lemmas for properties C69-C71. *)
From Coq Require Import ZArith QArith Qabs Ascii String Bool Lia Sorted List.
From Verif Require Import M_Py M_Str M_Cal M_Ini M_Nmea M_ReadNav M_Table M_Bgm M_Dgs S_Str S_Cal S_Nmea S_ReadNav S_Table S_Bgm S_Dgs
  L_Base L_Str L_Cal L_Nmea L_Nav2 L_ReadNav L_Dateline L_Num L_Table L_Bgm.
Import ListNotations.
Open Scope Z_scope.
Local Notation len := List.length.

(** ** Lines of the Langseth *)
Lemma lstrip_left s : left_trimmed s (lstrip s).
Proof.
  destruct (drop_while_split is_space s) as [a [E [H1 H2]]]. exists a. split; [exact E|]. split.
  - eapply Forall_impl; [|exact H1]. intros c. apply is_space_spec.
  - intros [c [r [Ec Hc]]]. specialize (H2 c r Ec). apply is_space_false in H2. contradiction.
Qed.
Lemma rstrip_nl s : right_trimmed s (rstrip_by (Ascii.eqb nl) s).
Proof.
  unfold rstrip_by. destruct (drop_while_split (Ascii.eqb nl) (rev s)) as [a [E [H1 H2]]].
  assert (Ha : a = repeat nl (len a)).
  { clear -H1. induction H1 as [|c a Hc _ IH]; [reflexivity|]. cbn [List.length repeat]. rewrite <- IH. f_equal. symmetry. apply Ascii.eqb_eq. exact Hc. }
  exists (len a). split.
  - rewrite <- (rev_involutive s), E at 1. rewrite rev_app_distr. f_equal. rewrite Ha at 1. clear. generalize (len a) as k.
    induction k as [|k IH]; [reflexivity|]. cbn [repeat rev]. rewrite IH. clear. induction k as [|k IH]; [reflexivity|]. cbn [repeat app]. rewrite IH. reflexivity.
  - intros [r Er]. apply (f_equal (@rev ascii)) in Er. rewrite rev_involutive, rev_app_distr in Er. specialize (H2 _ _ Er).
    rewrite Ascii.eqb_refl in H2. discriminate.
Qed.
Lemma not_space_spec c : not_space c = true <-> ~ space c.
Proof. unfold not_space. rewrite negb_true_iff. apply is_space_false. Qed.
Lemma not_space_false c : not_space c = false <-> space c.
Proof. unfold not_space. rewrite negb_false_iff. apply is_space_spec. Qed.
Lemma Forall_not_space s : Forall (fun c => not_space c = true) s -> Forall (fun c => ~ space c) s.
Proof. apply Forall_impl. intros c. apply not_space_spec. Qed.
(** three parts, or the words of the line *)
Lemma split_none2_cases s : (forall c r, s = c :: r -> ~ space c) ->
  (exists w1 b1 w2 b2 r, s = w1 ++ b1 ++ w2 ++ b2 ++ r /\ word w1 /\ blanks b1 /\ word w2 /\ blanks b2 /\
     (exists c r', r = c :: r' /\ ~ space c) /\ split_none2 s = [w1; w2; r]) \/
  (exists ws, words_of s ws /\ (len ws <= 2)%nat /\ nth_error (split_none2 s) 2 = None).
Proof.
  intros Hs. unfold split_none2. pose proof (span_spec not_space s) as Sp. destruct (span not_space s) as [a r]. destruct Sp as [E [Ha Hr]].
  apply Forall_not_space in Ha.
  assert (An : s <> [] -> a <> []).
  { intros Hn ->. destruct s as [|c s]; [congruence|]. cbn [app] in E. specialize (Hr c s (eq_sym E)). apply not_space_false in Hr. exact (Hs c s eq_refl Hr). }
  destruct (lstrip_left r) as [b1 [E1 [Hb1 Ht]]]. destruct (lstrip r) as [|c t] eqn:El.
  - right. rewrite app_nil_r in E1. subst r.
    destruct a as [|x a].
    + exists []. split; [subst s; cbn [app]; apply wo_nil; exact Hb1|]. split; [cbn; lia|reflexivity].
    + exists [x :: a]. split; [|split; [cbn; lia|reflexivity]]. subst s. destruct b1 as [|y b1].
      * rewrite app_nil_r. apply (wo_last []); [constructor|discriminate|exact Ha].
      * inversion Hb1; subst. apply (wo_cons [] (x :: a) y b1); [constructor|discriminate|exact Ha|assumption|]. apply wo_nil. exact Hb1.
  - assert (Hc : ~ space c) by (intros H; apply Ht; exists c, t; split; [reflexivity|exact H]).
    assert (Rn : r <> []) by (intros ->; destruct b1; discriminate).
    assert (Bn : b1 <> []).
    { intros ->. cbn [app] in E1. specialize (Hr c t E1). apply not_space_false in Hr. contradiction. }
    assert (Wa : word a) by (split; [apply An; intros ->; destruct a; [cbn [app] in E; congruence|discriminate]|exact Ha]).
    pose proof (span_spec not_space (c :: t)) as Sp. destruct (span not_space (c :: t)) as [b r2]. destruct Sp as [E2 [Hb Hr2]].
    apply Forall_not_space in Hb.
    assert (Wb : word b).
    { split; [|exact Hb]. intros ->. cbn [app] in E2. specialize (Hr2 c t (eq_sym E2)). apply not_space_false in Hr2. contradiction. }
    destruct (lstrip_left r2) as [b2 [E3 [Hb2 Ht2]]]. destruct (lstrip r2) as [|c2 t2] eqn:El2.
    + right. exists [a; b]. split; [|split; [cbn; lia|reflexivity]]. rewrite app_nil_r in E3. subst r2. rewrite E2 in E1. subst r s.
      destruct b1 as [|y b1]; [congruence|]. inversion Hb1; subst.
      apply (wo_cons [] a y (b1 ++ b ++ b2)); [constructor|exact (proj1 Wa)|exact Ha|assumption|].
      change (y :: b1 ++ b ++ b2) with ((y :: b1) ++ b ++ b2). destruct b2 as [|z b2].
      * rewrite app_nil_r. apply wo_last; [exact Hb1|exact (proj1 Wb)|exact Hb].
      * inversion Hb2; subst. apply wo_cons; [exact Hb1|exact (proj1 Wb)|exact Hb|assumption|]. apply wo_nil. exact Hb2.
    + left. exists a, b1, b, b2, (c2 :: t2). split; [rewrite E, E1, E2, E3; reflexivity|]. split; [exact Wa|]. split; [split; assumption|].
      split; [exact Wb|].
      assert (Hc2 : ~ space c2) by (intros H; apply Ht2; exists c2, t2; split; [reflexivity|exact H]).
      split; [split; [|exact Hb2]|split; [exists c2, t2; split; [reflexivity|exact Hc2]|reflexivity]].
      intros ->. cbn [app] in E3. specialize (Hr2 c2 t2 E3). apply not_space_false in Hr2. contradiction.
Qed.
Lemma langseth_line_spec l :
  match langseth_line l with
  | Fields r => len r = 26%nat /\ exists t, line_tail l t /\ fields_of "," t r
  | Skipped (Some n) => n <> 26%nat /\ exists t r, line_tail l t /\ fields_of "," t r /\ n = len r
  | Skipped None => only_prefix l
  end.
Proof.
  unfold langseth_line. pose proof (lstrip_left l) as Hl. set (s := lstrip l) in *. cbv zeta.
  assert (Keep : forall tail, line_tail l tail ->
    match (if (len (split (lit ",") tail) =? 26)%nat then Fields (split (lit ",") tail) else Skipped (Some (len (split (lit ",") tail)))) with
    | Fields r => len r = 26%nat /\ exists t, line_tail l t /\ fields_of "," t r
    | Skipped (Some n) => n <> 26%nat /\ exists t r, line_tail l t /\ fields_of "," t r /\ n = len r
    | Skipped None => only_prefix l
    end).
  { intros tail Ht. pose proof (split_fields "," tail) as Hf. change (split (lit ",") tail) with (split [","%char] tail).
    destruct (Nat.eqb_spec (len (split [","%char] tail)) 26) as [E|E].
    - split; [exact E|]. exists tail. split; assumption.
    - split; [exact E|]. exists tail. eexists. split; [exact Ht|]. split; [exact Hf|reflexivity]. }
  assert (Hs : forall c r, s = c :: r -> ~ space c).
  { intros c r E Hc. destruct Hl as [w [_ [_ Hn]]]. apply Hn. exists c, r. split; assumption. }
  destruct (prefixb (lit "dgsdata") s) eqn:P.
  - apply prefixb_spec in P. destruct (split_none2_cases s Hs) as [[w1 [b1 [w2 [b2 [r [E [W1 [B1 [W2 [B2 [Hr E2]]]]]]]]]]]|[ws [Hw [Hle E2]]]].
    + rewrite E2. cbn [nth_error]. apply Keep. rewrite E in Hl, P. eapply lt_prefix; try eassumption. apply rstrip_nl.
    + rewrite E2. exists s, ws. repeat split; assumption.
  - apply Keep. apply (lt_plain l s); [exact Hl| |apply rstrip_nl]. intros K. destruct K as [r K]. apply (proj1 (prefixb_false _ _) P r K).
Qed.
Lemma langseth_scan_spec lines : forall n, let '(kept, skipped) := langseth_scan n lines in laptop_lines n lines kept skipped.
Proof.
  induction lines as [|l lines IH]; intros n; [constructor|]. cbn [langseth_scan]. specialize (IH (S n)). destruct (langseth_scan (S n) lines) as [kept skipped].
  pose proof (langseth_line_spec l) as H. destruct (langseth_line l) as [r|[k|]].
  - destruct H as [H1 [t [H2 H3]]]. eapply ll_row; eassumption.
  - destruct H as [H1 [t [r [H2 [H3 ->]]]]]. eapply ll_other; eassumption.
  - apply ll_prefix; assumption.
Qed.

(** ** The specification is a function *)
Lemma left_trimmed_fun s a b : left_trimmed s a -> left_trimmed s b -> a = b.
Proof.
  assert (G : forall t, left_trimmed s t -> lstrip s = t).
  { intros t [w [-> [Hw Hn]]]. apply lstrip_spaces; [exact Hw|]. intros c r E Hc. apply Hn. exists c, r. split; assumption. }
  intros Ha Hb. rewrite <- (G _ Ha), <- (G _ Hb). reflexivity.
Qed.
Lemma right_trimmed_fun s a b : right_trimmed s a -> right_trimmed s b -> a = b.
Proof.
  assert (G : forall t, right_trimmed s t -> rstrip_by (Ascii.eqb nl) s = t).
  { intros t [k [-> Hn]]. rewrite rstrip_by_app.
    - apply rstrip_by_id. intros c r E. destruct (Ascii.eqb_spec nl c) as [<-|]; [|reflexivity]. exfalso. apply Hn. exists r. exact E.
    - apply Forall_forall. intros c Hc. apply repeat_spec in Hc. subst c. apply Ascii.eqb_refl. }
  intros Ha Hb. rewrite <- (G _ Ha), <- (G _ Hb). reflexivity.
Qed.
Lemma span_word w r : word w -> (forall c t, r = c :: t -> space c) -> span not_space (w ++ r) = (w, r).
Proof.
  intros [_ Hw] Hr. apply span_app; [eapply Forall_impl; [|exact Hw]; intros c; apply not_space_spec|]. intros c t E. apply not_space_false. apply (Hr c t E).
Qed.
Lemma blanks_head b r c t : blanks b -> b ++ r = c :: t -> space c.
Proof. intros [Hn Hb] E. destruct b as [|x b]; [congruence|]. injection E as <- _. inversion Hb; assumption. Qed.
Lemma word_head w r c t : word w -> w ++ r = c :: t -> ~ space c.
Proof. intros [Hn Hw] E. destruct w as [|x w]; [congruence|]. injection E as <- _. inversion Hw; assumption. Qed.
Lemma split_none2_parts w1 b1 w2 b2 r : word w1 -> blanks b1 -> word w2 -> blanks b2 -> (exists c r', r = c :: r' /\ ~ space c) ->
  split_none2 (w1 ++ b1 ++ w2 ++ b2 ++ r) = [w1; w2; r].
Proof.
  intros W1 B1 W2 B2 [c [r' [-> Hc]]]. unfold split_none2. rewrite (span_word w1 _ W1) by (intros x t E; exact (blanks_head _ _ _ _ B1 E)).
  rewrite (lstrip_spaces b1 _ (proj2 B1)) by (intros x t E; exact (word_head _ _ _ _ W2 E)).
  destruct (w2 ++ b2 ++ c :: r') as [|y z] eqn:E; [destruct (proj1 W2); destruct w2; [reflexivity|discriminate]|]. rewrite <- E.
  rewrite (span_word w2 _ W2) by (intros x t E'; exact (blanks_head _ _ _ _ B2 E')).
  rewrite (lstrip_spaces b2 _ (proj2 B2)); [reflexivity|]. intros x t E'. injection E' as <- _. exact Hc.
Qed.
Lemma words_length s ws : words_of s ws -> words s = ws.
Proof. apply words_spec. Qed.
Lemma words_three w1 b1 w2 b2 r ws : word w1 -> blanks b1 -> word w2 -> blanks b2 -> (exists c r', r = c :: r' /\ ~ space c) ->
  words_of (w1 ++ b1 ++ w2 ++ b2 ++ r) ws -> (3 <= len ws)%nat.
Proof.
  intros W1 B1 W2 B2 [c [r' [-> Hc]]] H. apply words_spec in H. rewrite <- H. unfold words.
  assert (Step : forall w b s, word w -> blanks b -> words_go (w ++ b ++ s) [] = w :: words_go s []).
  { intros w b s [Wn Ww] [Bn Bs]. rewrite words_go_word by exact Ww. rewrite app_nil_r. destruct b as [|x b]; [congruence|]. cbn [app words_go].
    inversion Bs as [|? ? Hx Hb]; subst. rewrite (proj2 (is_space_spec x) Hx).
    destruct (rev w) eqn:E; [exfalso; apply Wn; rewrite <- (rev_involutive w), E; reflexivity|]. rewrite <- E, rev_involutive.
    rewrite words_go_spaces by exact Hb. reflexivity. }
  rewrite (Step w1 b1 _ W1 B1), (Step w2 b2 _ W2 B2). cbn [List.length].
  assert (N : forall s cur, cur <> [] -> words_go s cur <> []).
  { induction s as [|x s IH]; intros cur Hn; cbn [words_go]; destruct cur; try congruence; try discriminate.
    destruct (is_space x); [discriminate|]. apply IH. discriminate. }
  cbn [words_go]. rewrite (proj2 (is_space_false c) Hc). specialize (N r' [c] ltac:(discriminate)). destruct (words_go r' [c]); [congruence|cbn; lia].
Qed.
Lemma line_tail_fun l a b : line_tail l a -> line_tail l b -> a = b.
Proof.
  intros [s t Hl Hp Ht|w1 b1 w2 b2 r t Hl Hp W1 B1 W2 B2 Hr Ht] [s' t' Hl' Hp' Ht'|w1' b1' w2' b2' r' t' Hl' Hp' W1' B1' W2' B2' Hr' Ht'].
  - rewrite (left_trimmed_fun _ _ _ Hl' Hl) in Ht'. exact (right_trimmed_fun _ _ _ Ht Ht').
  - rewrite (left_trimmed_fun _ _ _ Hl' Hl) in Hp'. contradiction.
  - rewrite (left_trimmed_fun _ _ _ Hl' Hl) in Hp'. contradiction.
  - pose proof (left_trimmed_fun _ _ _ Hl' Hl) as E. apply (f_equal split_none2) in E. rewrite !split_none2_parts in E by assumption.
    injection E as _ _ ->. exact (right_trimmed_fun _ _ _ Ht Ht').
Qed.
Lemma only_prefix_no_tail l t : only_prefix l -> ~ line_tail l t.
Proof.
  intros [s [ws [Hl [Hp [Hw Hn]]]]] [s' t' Hl' Hp' Ht'|w1' b1' w2' b2' r' t' Hl' Hp' W1' B1' W2' B2' Hr' Ht'].
  - rewrite (left_trimmed_fun _ _ _ Hl' Hl) in Hp'. contradiction.
  - rewrite (left_trimmed_fun _ _ _ Hl Hl') in Hw. pose proof (words_three _ _ _ _ _ _ W1' B1' W2' B2' Hr' Hw). lia.
Qed.
Lemma fields_of_fun d s a b : fields_of d s a -> fields_of d s b -> a = b.
Proof. intros Ha Hb. apply fields_split in Ha. apply fields_split in Hb. congruence. Qed.
Lemma laptop_lines_fun n ls k s k' s' : laptop_lines n ls k s -> laptop_lines n ls k' s' -> k' = k /\ s' = s.
Proof.
  intros H. revert k' s'. induction H as [n|n l ls t r rows skipped Ht Hf Hr _ IH|n l ls t r rows skipped Ht Hf Hr _ IH|n l ls rows skipped Ho _ IH]; intros k' s' H';
    inversion H' as [|n0 l0 ls0 t0 r0 rows0 skipped0 Ht0 Hf0 Hr0 Hn|n0 l0 ls0 t0 r0 rows0 skipped0 Ht0 Hf0 Hr0 Hn|n0 l0 ls0 rows0 skipped0 Ho0 Hn]; subst;
    try (exfalso; eapply only_prefix_no_tail; eassumption); try (destruct (IH _ _ Hn) as [-> ->]);
    try (rewrite (line_tail_fun _ _ _ Ht Ht0) in Hf; rewrite (fields_of_fun _ _ _ _ Hf Hf0) in *; try congruence; split; reflexivity); split; reflexivity.
Qed.

(** ** Dates from parts *)
Lemma mapM_raise_in (A B : Type) (f : A -> res B) l e : mapM f l = Raise e -> exists l1 a l2, l = l1 ++ a :: l2 /\ Forall (fun x => exists y, f x = Ok y) l1 /\ f a = Raise e.
Proof.
  induction l as [|a l IH]; cbn [mapM]; [discriminate|]. destruct (f a) as [b|e'] eqn:E; cbn [bind].
  - destruct (mapM f l) as [bs|e'] eqn:El; cbn [bind]; [discriminate|]. intros H. injection H as ->. destruct (IH eq_refl) as [l1 [x [l2 [-> [F Hx]]]]].
    exists (a :: l1), x, l2. split; [reflexivity|]. split; [constructor; [exists b; exact E|exact F]|exact Hx].
  - intros H. injection H as ->. exists [], a, l. split; [reflexivity|]. split; [constructor|exact E].
Qed.
Lemma get_has f c v : NoDup (map fst f) -> get_column f c = Ok v -> has_column f c v.
Proof. intros Hn. unfold get_column. destruct (column f c) as [w|] eqn:E; [|discriminate]. intros H. injection H as <-. apply column_some in E. exact E. Qed.
Lemma row_of_cells f n cs cols i : table f n -> mapM (get_column f) cs = Ok cols -> (i < n)%nat -> row_cells f cs i (row_of cols i).
Proof.
  intros Ht H Hi. apply mapM_Forall2_inv in H. unfold row_cells, row_of. induction H as [|c v cs cols Hc _ IH]; cbn [map]; constructor; [|exact IH].
  apply get_has in Hc; [|exact (proj1 Ht)]. exists v. split; [exact Hc|]. apply nth_error_nth'. destruct Ht as [_ [_ Hl]]. rewrite Forall_forall in Hl. specialize (Hl _ Hc). cbn [snd] in Hl. lia.
Qed.
Lemma parts_total l x : parts_read l x -> exists x', parts_time l = Ok x'.
Proof. intros H. destruct (parts_time_ok _ _ H) as [x' [E _]]. exists x'. exact E. Qed.
Lemma with_parts_cases f n : table f n -> (forall c, In c parts -> In c (map fst f)) -> ~ In (lit "date_time") (map fst f) ->
  match with_parts_time f with Ok g => dated f g n | Raise e => e = ValueError /\ undated f n end.
Proof.
  intros Ht Hp Hd. unfold with_parts_time, parts_column.
  assert (C : exists cols, mapM (get_column f) [lit "year"; lit "month"; lit "day"; lit "hour"; lit "minute"; lit "second"] = Ok cols /\ len cols = 6%nat).
  { assert (G : forall c, In c parts -> exists v, get_column f c = Ok v).
    { intros c Hc. unfold get_column. destruct (column f c) eqn:E; [eexists; reflexivity|]. apply column_none in E. exfalso. apply E. apply Hp. exact Hc. }
    unfold parts in G. cbn [map] in G.
    destruct (G (lit "year") ltac:(cbn [In]; tauto)) as [v1 E1]. destruct (G (lit "month") ltac:(cbn [In]; tauto)) as [v2 E2].
    destruct (G (lit "day") ltac:(cbn [In]; tauto)) as [v3 E3]. destruct (G (lit "hour") ltac:(cbn [In]; tauto)) as [v4 E4].
    destruct (G (lit "minute") ltac:(cbn [In]; tauto)) as [v5 E5]. destruct (G (lit "second") ltac:(cbn [In]; tauto)) as [v6 E6].
    exists [v1; v2; v3; v4; v5; v6]. cbn [mapM]. rewrite E1, E2, E3, E4, E5, E6. split; reflexivity. }
  destruct C as [cols [EC LC]]. rewrite EC. cbn [bind]. rewrite (nrows_table _ _ Ht).
  destruct (mapM (fun i => parts_time (row_of cols i)) (seq 0 n)) as [ts|e] eqn:E; cbn [bind].
  - apply mapM_Forall2_inv in E. exists ts.
    assert (L : len ts = n) by (apply Forall2_len in E; rewrite seq_length in E; lia).
    split; [|split; [exact L|]].
    + pose proof (set_column_with f (lit "date_time") ts (proj1 Ht)) as W. unfold date_time_name. inversion W as [f' Hf Ef Eg|a w b Ha Ef Eg]; [exact (eq_sym Eg)|].
      exfalso. apply Hd. rewrite <- Ef, map_app. apply in_or_app. right. left. reflexivity.
    + intros i Hi. exists (row_of cols i). destruct (nth_error ts i) as [t|] eqn:Et; [|apply nth_error_None in Et; lia].
      exists t. split; [exact (row_of_cells f n _ _ _ Ht EC Hi)|]. split; [reflexivity|]. apply parts_time_sound; [unfold row_of; rewrite map_length; exact LC|].
      assert (Hn : forall k l l' (P : nat -> cell -> Prop), Forall2 P l l' -> forall a b, nth_error l k = Some a -> nth_error l' k = Some b -> P a b).
      { clear. intros k l l' P H. revert k. induction H as [|x y l l' Hxy _ IH]; intros [|k] a b Ha Hb; cbn in Ha, Hb; try discriminate; [congruence|]. eapply IH; eassumption. }
      refine (Hn i _ _ _ E i t _ Et). rewrite nth_error_nth' with (d := 0%nat) by (rewrite seq_length; exact Hi). rewrite seq_nth by exact Hi. reflexivity.
  - destruct (mapM_raise_in _ _ _ _ _ E) as [l1 [i [l2 [Ei [_ He]]]]]. split; [apply parts_time_err in He; exact He|].
    assert (Hi : (i < n)%nat) by (assert (I : In i (seq 0 n)) by (rewrite Ei; apply in_or_app; right; left; reflexivity); apply in_seq in I; lia).
    exists i, (row_of cols i). split; [exact Hi|]. split; [exact (row_of_cells f n _ _ _ Ht EC Hi)|]. intros t K. destruct (parts_total _ _ K) as [x' K']. congruence.
Qed.

(** ** Laptop readers *)
Lemma check_columns_ok_inv ks rows : check_columns ks rows = Ok tt -> wide_enough ks rows.
Proof.
  unfold wide_enough, check_columns. destruct rows as [|r0 rows]; [left; reflexivity|]. destruct (forallb _ ks) eqn:E; [|discriminate]. intros _. right.
  intros k Hk. rewrite forallb_forall in E. specialize (E k Hk). apply existsb_exists in E. destruct E as [r [Hr Hl]]. exists r. split; [exact Hr|apply Nat.ltb_lt; exact Hl].
Qed.
Lemma laptop_columns_fields : laptop_columns = laptop_fields.
Proof. reflexivity. Qed.
Lemma frame_names cols rows f : csv_table cols rows f -> map fst f = map fst cols.
Proof. intros H. induction H as [|c col cols f [E _] _ IH]; [reflexivity|]. cbn [map]. rewrite E, IH. reflexivity. Qed.
Lemma csv_table_table cols rows f : csv_table cols rows f -> NoDup (map fst cols) -> cols <> [] -> table f (len rows).
Proof.
  intros H Hn Hc. split; [rewrite (frame_names _ _ _ H); exact Hn|]. split; [intros ->; inversion H; congruence|].
  clear -H. induction H as [|c col cols f [_ [texts [H1 H2]]] _ IH]; constructor; [|exact IH].
  apply Forall2_len in H1. rewrite H1. destruct H2 as [cs H2|cs s _ _ _ H2]; apply Forall2_len in H2; symmetry; exact H2.
Qed.
Fixpoint nodupb (l : list str) : bool := match l with [] => true | a :: t => negb (has t a) && nodupb t end.
Lemma nodupb_ok l : nodupb l = true -> NoDup l.
Proof.
  induction l as [|a l IH]; [constructor|]. cbn [nodupb]. intros H. apply andb_true_iff in H. destruct H as [H1 H2]. constructor; [|apply IH; exact H2].
  apply negb_true_iff in H1. apply has_false. exact H1.
Qed.
Lemma laptop_names_ok (f : frame) : map fst f = map fst laptop_fields ->
  (forall c, In c parts -> In c (map fst f)) /\ ~ In (lit "date_time") (map fst f).
Proof.
  intros ->. split.
  - intros c Hc. apply has_spec. unfold parts in Hc. cbn [map] in Hc. repeat (destruct Hc as [<-|Hc]; [reflexivity|]). destruct Hc.
  - apply has_false. reflexivity.
Qed.
Lemma csv_laptop skip text :
  match (do f <- read_csv laptop_columns (csv_rows "," skip text); with_parts_time f) with
  | Ok g => exists rows f, csv_file "," skip text rows /\ wide_enough (map snd laptop_fields) rows /\ csv_table laptop_fields rows f /\ dated f g (len rows)
  | Raise e => e = ValueError /\ exists rows, csv_file "," skip text rows /\
      (~ wide_enough (map snd laptop_fields) rows \/ exists f, csv_table laptop_fields rows f /\ undated f (len rows))
  end.
Proof.
  rewrite laptop_columns_fields. set (rows := csv_rows "," skip text).
  assert (Hr : csv_file "," skip text rows) by (apply csv_rows_file; reflexivity).
  unfold read_csv.
  destruct (check_columns_cases (map snd laptop_fields) rows) as [E|E]; rewrite E; cbn [bind].
  - pose proof (csv_frame_table laptop_fields rows) as Hf.
    assert (Ht : table (csv_frame laptop_fields rows) (len rows)) by (apply (csv_table_table _ _ _ Hf); [apply nodupb_ok; reflexivity|discriminate]).
    destruct (laptop_names_ok _ (frame_names _ _ _ Hf)) as [N1 N2].
    pose proof (with_parts_cases _ _ Ht N1 N2) as W. destruct (with_parts_time (csv_frame laptop_fields rows)) as [g|e].
    + exists rows, (csv_frame laptop_fields rows). split; [exact Hr|]. split; [|split; [exact Hf|exact W]].
      apply check_columns_ok_inv. exact E.
    + destruct W as [-> W]. split; [reflexivity|]. exists rows. split; [exact Hr|]. right. eexists. split; [exact Hf|exact W].
  - split; [reflexivity|]. exists rows. split; [exact Hr|]. left. intros K. rewrite (check_columns_ok _ _ K) in E. discriminate.
Qed.

Lemma langseth_columns rows : Forall (fun r : list str => len r = 26%nat) rows ->
  langseth_table rows (map (fun c => (fst c, map coerce (field_column (snd c) rows))) laptop_fields).
Proof.
  intros H. unfold langseth_table. apply Forall2_map_r. intros [c k] Hc. cbn [fst snd]. split; [reflexivity|].
  assert (Hk : (k < 26)%nat).
  { assert (B : forallb (fun c : str * nat => (snd c <? 26)%nat) laptop_fields = true) by reflexivity.
    rewrite forallb_forall in B. specialize (B _ Hc). apply Nat.ltb_lt in B. exact B. }
  unfold field_column. rewrite map_map. apply Forall2_map_r. intros r Hr. rewrite Forall_forall in H. specialize (H r Hr).
  exists (nth k r []). split; [apply nth_error_nth'; unfold str in *; lia|apply coerce_spec].
Qed.
Lemma langseth_names rows f : langseth_table rows f -> map fst f = map fst laptop_fields.
Proof. unfold langseth_table. generalize laptop_fields. intros cols H. induction H as [|c col cols f [E _] _ IH]; [reflexivity|]. cbn [map]. rewrite E, IH. reflexivity. Qed.
Lemma langseth_is_table rows f : langseth_table rows f -> table f (len rows).
Proof.
  intros H. split; [rewrite (langseth_names _ _ H); apply nodupb_ok; reflexivity|]. split; [intros ->; inversion H|].
  unfold langseth_table in H. revert H. generalize laptop_fields. intros cols H. induction H as [|c col cols f [_ H1] _ IH]; constructor; [|exact IH].
  apply Forall2_len in H1. lia.
Qed.
Lemma laptop_lines_26 n ls rows skipped : laptop_lines n ls rows skipped -> Forall (fun r : list str => len r = 26%nat) rows.
Proof. induction 1; try constructor; assumption. Qed.
Lemma langseth_cases text :
  exists lines rows skipped, file_lines text lines /\ laptop_lines 1 lines rows skipped /\
  match dgs_laptop_Langseth text with
  | Ok (g, reports) => reports = skipped /\ exists f, langseth_table rows f /\ dated f g (len rows)
  | Raise e => e = ValueError /\ exists f, langseth_table rows f /\ undated f (len rows)
  end.
Proof.
  destruct (lines_exist text) as [ls [Hl E]]. unfold dgs_laptop_Langseth. rewrite E. pose proof (langseth_scan_spec ls 1) as H.
  destruct (langseth_scan 1 ls) as [rows skipped]. exists ls, rows, skipped. split; [exact Hl|]. split; [exact H|].
  pose proof (langseth_columns rows (laptop_lines_26 _ _ _ _ H)) as Hf. destruct rows as [|r0 rs].
  - split; [reflexivity|]. eexists. split; [exact Hf|]. exists []. split; [reflexivity|]. split; [reflexivity|]. intros i Hi. inversion Hi.
  - rewrite laptop_columns_fields. set (rows := r0 :: rs) in *. set (f := map _ laptop_fields) in *.
    destruct (laptop_names_ok _ (langseth_names _ _ Hf)) as [N1 N2]. pose proof (with_parts_cases f (len rows) (langseth_is_table _ _ Hf) N1 N2) as W.
    destruct (with_parts_time f) as [g|e]; cbn [bind].
    + split; [reflexivity|]. exists f. split; [exact Hf|exact W].
    + destruct W as [-> W]. split; [reflexivity|]. exists f. split; [exact Hf|exact W].
Qed.
Lemma stamps_cases kd kt rows :
  (exists stamps, stamps_of kd kt rows stamps) \/ numeric_stamps kd kt rows.
Proof.
  assert (C : forall l, (exists cs, text_column l cs) \/ number_column l).
  { intros l. destruct l as [|a l]; [left; exists []; split; [left; reflexivity|constructor]|]. set (l0 := a :: l).
    destruct (Forall_Exists_dec (fun s => missing s \/ a_number s)
      ltac:(intros s; destruct (is_na s) eqn:E1; [left; left; apply is_na_spec; exact E1|]; destruct (numeral s) as [q|] eqn:E2;
        [left; right; exists q; apply numeral_some; exact E2|right; intros [K|K]; [apply is_na_false in E1; contradiction|apply numeral_none in E2; contradiction]]) l0) as [F|F].
    - right. split; [discriminate|exact F].
    - left. apply Exists_exists in F. destruct F as [s [Hs Hn]]. exists (map (fun s => if is_na s then NaN else Txt s) l0). split.
      + right. exists s. split; [exact Hs|]. split; intros K; apply Hn; [left|right]; exact K.
      + apply Forall2_map_r. intros x _. destruct (is_na x) eqn:E; [apply tc_missing; apply is_na_spec; exact E|apply tc_text; apply is_na_false; exact E]. }
  destruct (C (field_column kd rows)) as [[ds Hd]|Hd].
  - destruct (C (field_column kt rows)) as [[ts Ht]|Ht].
    + left. assert (J : exists st, Forall2 (fun dt st => joined (fst dt) (snd dt) st) (combine ds ts) st).
      { pose proof (text_only _ _ Hd) as T1. pose proof (text_only _ _ Ht) as T2. clear -T1 T2. revert ts T2.
        induction T1 as [|a ds Ha _ IH]; intros ts T2; [exists []; constructor|]. destruct T2 as [|b ts Hb T2]; [exists []; constructor|].
        destruct (IH ts T2) as [st Hst]. destruct Ha as [->|[x ->]]; [exists (NaN :: st); cbn [combine]; constructor; [apply jo_left|exact Hst]|].
        destruct Hb as [->|[y ->]]; [exists (NaN :: st); cbn [combine]; constructor; [apply jo_right|exact Hst]|].
        eexists (_ :: st). cbn [combine]. constructor; [apply jo_texts|exact Hst]. }
      destruct J as [st Hst]. exists st, (field_column kd rows), (field_column kt rows), ds, ts.
      split; [apply field_column_at; reflexivity|]. split; [apply field_column_at; reflexivity|]. split; [exact Hd|]. split; [exact Ht|exact Hst].
    + right. exists (field_column kd rows), (field_column kt rows). split; [apply field_column_at; reflexivity|]. split; [apply field_column_at; reflexivity|]. right. exact Ht.
  - right. exists (field_column kd rows), (field_column kt rows). split; [apply field_column_at; reflexivity|]. split; [apply field_column_at; reflexivity|]. left. exact Hd.
Qed.
Lemma thompson_cases td text :
  match dgs_laptop_Thompson td text with Ok g => laptop_file td (lit "Thompson") text g | Raise e => laptop_error td (lit "Thompson") text e end.
Proof.
  unfold dgs_laptop_Thompson. set (rows := csv_rows "," 0 text). assert (Hr : csv_file "," 0 text rows) by (apply csv_rows_file; reflexivity). cbv zeta.
  destruct (check_columns_cases [0; 1; 3; 12; 13; 14; 15; 16; 17]%nat rows) as [E|E]; rewrite E; cbn [bind].
  - apply check_columns_ok_inv in E. destruct (stamps_cases 0 1 rows) as [[stamps Hs]|Hs].
    + rewrite (stamps_time _ _ _ _ _ Hs). destruct (td stamps) as [ts|e] eqn:Et; cbn [bind].
      * change (combine _ _) with thompson_fields. eapply lf_Thompson; try eassumption. apply csv_frame_table.
      * eapply le_Thompson_date; eassumption.
    + rewrite (stamps_numeric _ _ _ _ Hs). cbn [bind]. eapply le_Thompson_stamps; eassumption.
  - eapply le_Thompson_narrow; [exact Hr|]. intros K. rewrite (check_columns_ok _ _ K) in E. discriminate.
Qed.
Lemma laptop_cases fsys td ship p text : In ship all_laptop_ships -> fsys p = Some text ->
  match laptop_reader fsys td ship None p with Ok (Some g) => laptop_file td ship text g | Ok None => False | Raise e => laptop_error td ship text e end.
Proof.
  intros Hs Hp. unfold laptop_reader, open_text. rewrite Hp. cbn [bind].
  destruct (has [lit "Atlantis"; lit "Revelle"; lit "NBP"; lit "Ride"; lit "DGStest"] ship) eqn:G.
  - apply has_spec in G. change (In ship laptop_ships) in G. unfold dgs_laptop_general. pose proof (csv_laptop 0 text) as H.
    destruct (do f <- read_csv laptop_columns (csv_rows "," 0 text); with_parts_time f) as [g|e]; cbn [bind].
    + destruct H as [rows [f [H1 [H2 [H3 H4]]]]]. eapply lf_general; eassumption.
    + destruct H as [-> [rows [H1 [H2|[f [H2 H3]]]]]]; [eapply le_general_narrow; eassumption|eapply le_general_date; eassumption].
  - apply has_false in G. unfold all_laptop_ships in Hs. apply in_app_or in Hs. destruct Hs as [Hs|Hs]; [exfalso; apply G; exact Hs|].
    cbn [map] in Hs. destruct Hs as [<-|[<-|[<-|[]]]];
      repeat match goal with |- context [str_eqb (lit ?a) (lit ?b)] =>
        let r := eval vm_compute in (str_eqb (lit a) (lit b)) in replace (str_eqb (lit a) (lit b)) with r by reflexivity; cbv iota end.
    + pose proof (thompson_cases td text) as H. destruct (dgs_laptop_Thompson td text) as [g|e]; cbn [bind]; exact H.
    + unfold dgs_laptop_Sikuliaq. pose proof (csv_laptop 19 text) as H.
      destruct (do f <- read_csv laptop_columns (csv_rows "," 19 text); with_parts_time f) as [g|e]; cbn [bind].
      * destruct H as [rows [f [H1 [H2 [H3 H4]]]]]. eapply lf_Sikuliaq; eassumption.
      * destruct H as [-> [rows [H1 [H2|[f [H2 H3]]]]]]; [eapply le_Sikuliaq_narrow; eassumption|eapply le_Sikuliaq_date; eassumption].
    + destruct (langseth_cases text) as [lines [rows [skipped [H1 [H2 H3]]]]]. destruct (dgs_laptop_Langseth text) as [[g reports]|e]; cbn [bind fst].
      * destruct H3 as [_ [f [H3 H4]]]. eapply lf_Langseth; eassumption.
      * destruct H3 as [-> [f [H3 H4]]]. eapply le_Langseth_date; eassumption.
Qed.
Lemma dated_table f g n : table f n -> ~ In (lit "date_time") (map fst f) -> dated f g n -> table g n.
Proof.
  intros [H1 [H2 H3]] Hd [ts [-> [L _]]]. split; [rewrite map_app; apply NoDup_snoc; assumption|]. split; [destruct f; discriminate|].
  apply Forall_app. split; [exact H3|]. constructor; [exact L|constructor].
Qed.
Lemma laptop_file_table td ship text g : keeps_length td -> laptop_file td ship text g -> exists n, table g n.
Proof.
  intros Hk [ship' text' rows f g' H1 H2 H3 H4 H5|text' rows f g' H2 H3 H4 H5|text' rows f stamps ts H2 H3 H4 H5 H6|text' lines rows skipped f g' H2 H3 H4 H5]; exists (len rows).
  - apply (dated_table f); [apply (csv_table_table _ _ _ H4); [apply nodupb_ok; reflexivity|discriminate]| |exact H5].
    rewrite (frame_names _ _ _ H4). apply has_false. reflexivity.
  - apply (dated_table f); [apply (csv_table_table _ _ _ H4); [apply nodupb_ok; reflexivity|discriminate]| |exact H5].
    rewrite (frame_names _ _ _ H4). apply has_false. reflexivity.
  - assert (T : table f (len rows)) by (apply (csv_table_table _ _ _ H4); [apply nodupb_ok; reflexivity|discriminate]).
    destruct T as [T1 [T2 T3]]. split; [rewrite map_app; apply NoDup_snoc; [exact T1|]; rewrite (frame_names _ _ _ H4); apply has_false; reflexivity|].
    split; [destruct f; discriminate|]. apply Forall_app. split; [exact T3|]. constructor; [|constructor]. cbn [snd]. apply Hk in H6. rewrite H6. apply (stamps_length _ _ _ _ H5).
  - apply (dated_table f); [apply langseth_is_table; exact H4| |exact H5]. rewrite (langseth_names _ _ H4). apply has_false. reflexivity.
Qed.

(** ** Time stamps *)
Lemma numeral_of_bound lo hi s z : numeral_of lo hi s z -> Forall (fun c => is_digit c = true) s /\ digits_val s = z /\ (lo <= len s <= hi)%nat /\ 0 <= z < 10 ^ Z.of_nat (len s).
Proof.
  intros [Hl Hw]. apply whole_digits in Hw. destruct Hw as [Hd <-]. split; [exact Hd|]. split; [reflexivity|]. split; [exact Hl|]. apply digits_val_bound. exact Hd.
Qed.
Lemma numeral_of_digits lo hi s : Forall (fun c => is_digit c = true) s -> (lo <= len s <= hi)%nat -> numeral_of lo hi s (digits_val s).
Proof. intros Hd Hl. split; [exact Hl|apply digits_whole; exact Hd]. Qed.
Lemma pow10_mono a b : (a <= b)%nat -> 10 ^ Z.of_nat a <= 10 ^ Z.of_nat b.
Proof. intros H. apply Z.pow_le_mono_r; lia. Qed.
Lemma c_int_small z : 0 <= z < 10 ^ 9 -> c_int z = true.
Proof. intros H. unfold c_int. apply andb_true_iff. split; [apply Z.leb_le|apply Z.ltb_lt]; lia. Qed.
Lemma dt_us_cases y m d h mi s us : 0 <= y < 10 ^ 9 -> 0 <= m < 10 ^ 9 -> 0 <= d < 10 ^ 9 -> 0 <= h < 10 ^ 9 -> 0 <= mi < 10 ^ 9 -> 0 <= s < 10 ^ 9 -> 0 <= us < 1000000 ->
  match dt_us y m d h mi s us with
  | Ok i => 1 <= y <= 9999 /\ valid_date (y, m, d) /\ clock h mi s /\ instant (y, m, d) h mi s us i
  | Raise e => e = ValueError
  end.
Proof.
  intros Hy Hm Hd Hh Hmi Hs Hu. unfold dt_us. assert (E : forallb c_int [y; m; d; h; mi; s; us] = true).
  { cbn [forallb]. rewrite !c_int_small by lia. reflexivity. }
  rewrite E. destruct (datetime_new y m d h mi s us (Some 0)) as [t|e] eqn:Et; cbn [bind].
  - apply datetime_new_inv in Et. destruct Et as [-> [H1 [H2 [H3 [H4 [H5 H6]]]]]]. split; [exact H1|]. split; [exact H2|]. split; [unfold clock; lia|].
    unfold utc_us. rewrite Z.sub_0_r. apply instant_local. exact H2.
  - exact (datetime_new_err _ _ _ _ _ _ _ _ _ Et).
Qed.
Ltac bounds := repeat match goal with H : numeral_of _ _ _ _ |- _ => apply numeral_of_bound in H; destruct H as [? [? [? ?]]] end.
Lemma pow_2 : 10 ^ Z.of_nat 2 = 100. Proof. reflexivity. Qed.
Lemma pow_4 : 10 ^ Z.of_nat 4 = 10000. Proof. reflexivity. Qed.
Lemma pow_6 : 10 ^ Z.of_nat 6 = 1000000. Proof. reflexivity. Qed.
Lemma numeral_small lo hi s z : numeral_of lo hi s z -> 0 <= z < 10 ^ Z.of_nat hi.
Proof. intros H. apply numeral_of_bound in H. destruct H as [_ [_ [Hl Hz]]]. pose proof (pow10_mono (len s) hi ltac:(lia)). lia. Qed.
Lemma clock_ok h mi s : clock h mi s -> 0 <= h -> 0 <= mi -> 0 <= s -> 0 <= h < 24 /\ 0 <= mi < 60 /\ 0 <= s < 60.
Proof. unfold clock. lia. Qed.
Lemma stamp14_ok s i : stamp_14 s i -> stamp14 s = Ok (time_cell i).
Proof.
  intros [sy sm sd sh si ss y m d h mi s' i' Hy Hm Hd Hh Hmi Hs Hy1 Hv Hc Hi].
  pose proof (numeral_small _ _ _ _ Hy). pose proof (numeral_small _ _ _ _ Hm). pose proof (numeral_small _ _ _ _ Hd).
  pose proof (numeral_small _ _ _ _ Hh). pose proof (numeral_small _ _ _ _ Hmi). pose proof (numeral_small _ _ _ _ Hs). rewrite ?pow_2, ?pow_4 in *.
  bounds.
  assert (L : len sy = 4%nat /\ len sm = 2%nat /\ len sd = 2%nat /\ len sh = 2%nat /\ len si = 2%nat /\ len ss = 2%nat) by lia.
  destruct L as [L1 [L2 [L3 [L4 [L5 L6]]]]]. unfold stamp14. rewrite !app_length, L1, L2, L3, L4, L5, L6.
  assert (F : forallb is_digit (sy ++ sm ++ sd ++ sh ++ si ++ ss) = true) by (apply forallb_Forall; repeat (apply Forall_app; split; [assumption|]); assumption).
  rewrite F.
  assert (Sk : forall n a b, len a = n -> skipn n (a ++ b : str) = b) by (intros n a b <-; rewrite skipn_app, Nat.sub_diag, skipn_all; reflexivity).
  assert (Fi : forall n a b, len a = n -> firstn n (a ++ b : str) = a) by (intros n a b <-; rewrite firstn_app, Nat.sub_diag, firstn_all; cbn [firstn]; apply app_nil_r).
  replace (skipn 12 (sy ++ sm ++ sd ++ sh ++ si ++ ss)) with ss
    by (symmetry; rewrite !app_assoc; apply Sk; rewrite !app_length; lia).
  replace (skipn 10 (sy ++ sm ++ sd ++ sh ++ si ++ ss)) with (si ++ ss)
    by (symmetry; rewrite (app_assoc sd), (app_assoc sm), (app_assoc sy); apply Sk; rewrite !app_length; lia).
  replace (skipn 8 (sy ++ sm ++ sd ++ sh ++ si ++ ss)) with (sh ++ si ++ ss)
    by (symmetry; rewrite (app_assoc sm), (app_assoc sy); apply Sk; rewrite !app_length; lia).
  replace (skipn 6 (sy ++ sm ++ sd ++ sh ++ si ++ ss)) with (sd ++ sh ++ si ++ ss)
    by (symmetry; rewrite (app_assoc sy); apply Sk; rewrite !app_length; lia).
  rewrite (Sk 4%nat sy _ L1), (Fi 4%nat sy _ L1), (Fi 2%nat sm _ L2), (Fi 2%nat sd _ L3), (Fi 2%nat sh _ L4), (Fi 2%nat si _ L5).
  cbn [Nat.add Nat.eqb andb]. repeat match goal with E : digits_val _ = _ |- _ => rewrite E; clear E end.
  destruct (clock_ok _ _ _ Hc) as [? [? ?]]; try lia.
  rewrite (dt_us_instant y m d h mi s' 0 i') by (assumption || lia). reflexivity.
Qed.
Lemma stamp14_sound s c : stamp14 s = Ok c -> exists i, stamp_14 s i /\ c = time_cell i.
Proof.
  unfold stamp14. destruct ((len s =? 14)%nat && forallb is_digit s) eqn:E; [|discriminate]. apply andb_true_iff in E. destruct E as [El Ed].
  apply Nat.eqb_eq in El. apply forallb_Forall in Ed.
  set (sy := firstn 4 s). set (sm := firstn 2 (skipn 4 s)). set (sd := firstn 2 (skipn 6 s)). set (sh := firstn 2 (skipn 8 s)).
  set (si := firstn 2 (skipn 10 s)). set (ss := skipn 12 s). intros H.
  assert (Es : s = sy ++ sm ++ sd ++ sh ++ si ++ ss).
  { unfold sy, sm, sd, sh, si, ss.
    assert (K : forall n (l : str), firstn 2 (skipn n l) ++ skipn (2 + n) l = skipn n l).
    { intros n l. rewrite <- (firstn_skipn 2 (skipn n l)) at 2. f_equal. clear. revert l. induction n as [|n IH]; intros l; [reflexivity|].
      destruct l as [|x l]; [rewrite !skipn_nil; reflexivity|]. cbn [Nat.add skipn] in *. apply IH. }
    pose proof (K 10%nat s) as K10. pose proof (K 8%nat s) as K8. pose proof (K 6%nat s) as K6. pose proof (K 4%nat s) as K4. cbn [Nat.add] in K10, K8, K6, K4.
    rewrite K10, K8, K6, K4. symmetry. apply firstn_skipn. }
  assert (D : Forall (fun c => is_digit c = true) sy /\ Forall (fun c => is_digit c = true) sm /\ Forall (fun c => is_digit c = true) sd /\
              Forall (fun c => is_digit c = true) sh /\ Forall (fun c => is_digit c = true) si /\ Forall (fun c => is_digit c = true) ss).
  { rewrite Es in Ed. repeat (apply Forall_app in Ed; destruct Ed as [? Ed]). repeat split; assumption. }
  assert (L : len sy = 4%nat /\ len sm = 2%nat /\ len sd = 2%nat /\ len sh = 2%nat /\ len si = 2%nat /\ len ss = 2%nat).
  { unfold sy, sm, sd, sh, si, ss. rewrite !firstn_length, !skipn_length. rewrite El. repeat split; reflexivity. }
  destruct D as [D1 [D2 [D3 [D4 [D5 D6]]]]]. destruct L as [L1 [L2 [L3 [L4 [L5 L6]]]]].
  pose proof (numeral_of_digits 4 4 sy D1 ltac:(lia)) as N1. pose proof (numeral_of_digits 2 2 sm D2 ltac:(lia)) as N2. pose proof (numeral_of_digits 2 2 sd D3 ltac:(lia)) as N3.
  pose proof (numeral_of_digits 2 2 sh D4 ltac:(lia)) as N4. pose proof (numeral_of_digits 2 2 si D5 ltac:(lia)) as N5. pose proof (numeral_of_digits 2 2 ss D6 ltac:(lia)) as N6.
  pose proof (numeral_small _ _ _ _ N1) as B1. pose proof (numeral_small _ _ _ _ N2) as B2. pose proof (numeral_small _ _ _ _ N3) as B3.
  pose proof (numeral_small _ _ _ _ N4) as B4. pose proof (numeral_small _ _ _ _ N5) as B5. pose proof (numeral_small _ _ _ _ N6) as B6. rewrite ?pow_2, ?pow_4 in *.
  pose proof (dt_us_cases (digits_val sy) (digits_val sm) (digits_val sd) (digits_val sh) (digits_val si) (digits_val ss) 0 ltac:(lia) ltac:(lia) ltac:(lia) ltac:(lia) ltac:(lia) ltac:(lia) ltac:(lia)) as C.
  destruct (dt_us _ _ _ _ _ _ _) as [i|e]; cbn [bind] in H; [|discriminate]. destruct C as [C1 [C2 [C3 C4]]]. exists i. split; [|injection H as <-; reflexivity].
  rewrite Es. eapply s14; try eassumption. lia.
Qed.
Lemma stamp14_err s e : stamp14 s = Raise e -> e = ValueError.
Proof.
  unfold stamp14. destruct ((len s =? 14)%nat && forallb is_digit s) eqn:E; [|congruence]. apply andb_true_iff in E. destruct E as [El Ed].
  apply Nat.eqb_eq in El. apply forallb_Forall in Ed. intros H.
  assert (B : forall n a, 0 <= digits_val (firstn n (skipn a s)) < 10 ^ 14).
  { intros n a. assert (F : Forall (fun c => is_digit c = true) (firstn n (skipn a s))).
    { apply Forall_forall. intros x Hx. rewrite Forall_forall in Ed. apply Ed. rewrite <- (firstn_skipn a s). apply in_or_app. right.
      rewrite <- (firstn_skipn n (skipn a s)). apply in_or_app. left. exact Hx. }
    pose proof (digits_val_bound _ F) as K. pose proof (pow10_mono (len (firstn n (skipn a s))) 14) as P. rewrite firstn_length, skipn_length in *.
    specialize (P ltac:(lia)). change (10 ^ Z.of_nat 14) with (10 ^ 14) in P. lia. }
  assert (B2 : forall n a, (n <= 4)%nat -> 0 <= digits_val (firstn n (skipn a s)) < 10 ^ 9).
  { intros n a Hn. assert (F : Forall (fun c => is_digit c = true) (firstn n (skipn a s))).
    { apply Forall_forall. intros x Hx. rewrite Forall_forall in Ed. apply Ed. rewrite <- (firstn_skipn a s). apply in_or_app. right.
      rewrite <- (firstn_skipn n (skipn a s)). apply in_or_app. left. exact Hx. }
    pose proof (digits_val_bound _ F) as K. pose proof (pow10_mono (len (firstn n (skipn a s))) 9) as P. rewrite firstn_length in *.
    specialize (P ltac:(lia)). change (10 ^ Z.of_nat 9) with (10 ^ 9) in P. lia. }
  replace (skipn 12 s) with (firstn 2 (skipn 12 s)) in H by (apply firstn_all2; rewrite skipn_length; lia).
  pose proof (dt_us_cases (digits_val (firstn 4 s)) (digits_val (firstn 2 (skipn 4 s))) (digits_val (firstn 2 (skipn 6 s))) (digits_val (firstn 2 (skipn 8 s)))
    (digits_val (firstn 2 (skipn 10 s))) (digits_val (firstn 2 (skipn 12 s))) 0 (B2 4%nat 0%nat ltac:(lia)) (B2 2%nat 4%nat ltac:(lia)) (B2 2%nat 6%nat ltac:(lia))
    (B2 2%nat 8%nat ltac:(lia)) (B2 2%nat 10%nat ltac:(lia)) (B2 2%nat 12%nat ltac:(lia)) ltac:(lia)) as C.
  destruct (dt_us _ _ _ _ _ _ _); cbn [bind] in H; congruence.
Qed.

Lemma directive_inv lo hi sep s d r : directive lo hi sep s = Ok (d, r) -> s = d ++ sep ++ r /\ (lo <= len d <= hi)%nat /\ Forall (fun c => is_digit c = true) d.
Proof.
  unfold directive. pose proof (span_spec is_digit s) as Sp. destruct (span is_digit s) as [a b]. destruct Sp as [E [Ha _]].
  destruct ((lo <=? len a)%nat && (len a <=? hi)%nat && prefixb sep b) eqn:K; [|discriminate]. intros H. injection H as -> <-.
  apply andb_true_iff in K. destruct K as [K K3]. apply andb_true_iff in K. destruct K as [K1 K2]. apply Nat.leb_le in K1. apply Nat.leb_le in K2.
  apply prefixb_spec in K3. destruct K3 as [t ->]. rewrite skipn_app, Nat.sub_diag, skipn_all. cbn [skipn app]. split; [exact E|]. split; [lia|exact Ha].
Qed.
Lemma directive_ok lo hi sep d r : (lo <= len d <= hi)%nat -> Forall (fun c => is_digit c = true) d -> (forall c t, sep ++ r = c :: t -> is_digit c = false) ->
  directive lo hi sep (d ++ sep ++ r) = Ok (d, r).
Proof.
  intros Hl Hd Hs. unfold directive. rewrite span_app by assumption. rewrite prefixb_app.
  replace (lo <=? len d)%nat with true by (symmetry; apply Nat.leb_le; lia). replace (len d <=? hi)%nat with true by (symmetry; apply Nat.leb_le; lia).
  cbn [andb]. rewrite skipn_app, Nat.sub_diag, skipn_all. reflexivity.
Qed.
Lemma directive_err lo hi sep s e : directive lo hi sep s = Raise e -> e = ValueError.
Proof. unfold directive. destruct (span is_digit s). destruct (_ && _); congruence. Qed.
Lemma fraction_small sf f : numeral_of 1 6 sf f -> 0 <= f * 10 ^ Z.of_nat (6 - len sf) < 1000000.
Proof.
  intros H. apply numeral_of_bound in H. destruct H as [_ [_ [Hl Hf]]].
  assert (E : 10 ^ Z.of_nat (len sf) * 10 ^ Z.of_nat (6 - len sf) = 1000000) by (rewrite <- Z.pow_add_r by lia; rewrite <- Nat2Z.inj_add; replace (len sf + (6 - len sf))%nat with 6%nat by lia; reflexivity).
  assert (P : 0 < 10 ^ Z.of_nat (6 - len sf)) by (apply Z.pow_pos_nonneg; lia). nia.
Qed.
Lemma mdy_ok s i : stamp_mdy s i -> strptime_Thompson s = Ok (i # 1000000).
Proof.
  intros [sm sd sy sh si ss sf m d y h mi s' f i' Hm Hd Hy Hh Hmi Hs Hf Hy1 Hv Hc Hi].
  pose proof (numeral_small _ _ _ _ Hy). pose proof (numeral_small _ _ _ _ Hm). pose proof (numeral_small _ _ _ _ Hd).
  pose proof (numeral_small _ _ _ _ Hh). pose proof (numeral_small _ _ _ _ Hmi). pose proof (numeral_small _ _ _ _ Hs). pose proof (fraction_small _ _ Hf) as Hff. rewrite ?pow_2, ?pow_4 in *.
  bounds. unfold strptime_Thompson.
  assert (ND : forall x r' c r, x = ":"%char \/ x = "."%char \/ x = "/"%char -> [x] ++ r' = c :: r -> is_digit c = false)
    by (intros x r' c r [->|[->| ->]] E; injection E as <- _; reflexivity).
  change (lit ":") with [":"%char] in *. change (lit ".") with ["."%char] in *. change (lit "/") with ["/"%char] in *.
  rewrite directive_ok by (assumption || (intros; eapply ND; [|eassumption]; tauto)). cbn [bind snd fst].
  rewrite directive_ok by (assumption || (intros; eapply ND; [|eassumption]; tauto)). cbn [bind snd fst].
  rewrite directive_ok by (assumption || (intros; eapply ND; [|eassumption]; tauto)). cbn [bind snd fst].
  rewrite directive_ok by (assumption || (intros; eapply ND; [|eassumption]; tauto)). cbn [bind snd fst].
  rewrite directive_ok by (assumption || (intros; eapply ND; [|eassumption]; tauto)). cbn [bind snd fst].
  rewrite directive_ok by (assumption || (intros; eapply ND; [|eassumption]; tauto)). cbn [bind snd fst].
  rewrite <- (app_nil_r sf) at 1. change (sf ++ []) with (sf ++ [] ++ []). rewrite directive_ok by (assumption || discriminate). cbn [bind snd fst].
  repeat match goal with E : digits_val _ = _ |- _ => rewrite E; clear E end.
  destruct (clock_ok _ _ _ Hc) as [? [? ?]]; try lia.
  rewrite (dt_us_instant y m d h mi s' _ i') by (assumption || lia). reflexivity.
Qed.
Lemma mdy_sound s q : strptime_Thompson s = Ok q -> exists i, stamp_mdy s i /\ q = i # 1000000.
Proof.
  unfold strptime_Thompson. intros H.
  destruct (directive 1 2 (lit "/") s) as [[sm r1]|] eqn:E1; cbn [bind snd fst] in H; [|discriminate].
  destruct (directive 1 2 (lit "/") r1) as [[sd r2]|] eqn:E2; cbn [bind snd fst] in H; [|discriminate].
  destruct (directive 4 4 (lit ":") r2) as [[sy r3]|] eqn:E3; cbn [bind snd fst] in H; [|discriminate].
  destruct (directive 1 2 (lit ":") r3) as [[sh r4]|] eqn:E4; cbn [bind snd fst] in H; [|discriminate].
  destruct (directive 1 2 (lit ":") r4) as [[si r5]|] eqn:E5; cbn [bind snd fst] in H; [|discriminate].
  destruct (directive 1 2 (lit ".") r5) as [[ss r6]|] eqn:E6; cbn [bind snd fst] in H; [|discriminate].
  destruct (directive 1 6 [] r6) as [[sf r7]|] eqn:E7; cbn [bind snd fst] in H; [|discriminate].
  apply directive_inv in E1. apply directive_inv in E2. apply directive_inv in E3. apply directive_inv in E4. apply directive_inv in E5. apply directive_inv in E6. apply directive_inv in E7.
  destruct E1 as [-> [L1 D1]]. destruct E2 as [-> [L2 D2]]. destruct E3 as [-> [L3 D3]]. destruct E4 as [-> [L4 D4]]. destruct E5 as [-> [L5 D5]]. destruct E6 as [-> [L6 D6]]. destruct E7 as [-> [L7 D7]].
  destruct r7; [|discriminate].
  pose proof (numeral_of_digits 1 2 sm D1 L1) as N1. pose proof (numeral_of_digits 1 2 sd D2 L2) as N2. pose proof (numeral_of_digits 4 4 sy D3 L3) as N3.
  pose proof (numeral_of_digits 1 2 sh D4 L4) as N4. pose proof (numeral_of_digits 1 2 si D5 L5) as N5. pose proof (numeral_of_digits 1 2 ss D6 L6) as N6. pose proof (numeral_of_digits 1 6 sf D7 L7) as N7.
  pose proof (numeral_small _ _ _ _ N1) as B1. pose proof (numeral_small _ _ _ _ N2) as B2. pose proof (numeral_small _ _ _ _ N3) as B3.
  pose proof (numeral_small _ _ _ _ N4) as B4. pose proof (numeral_small _ _ _ _ N5) as B5. pose proof (numeral_small _ _ _ _ N6) as B6. pose proof (fraction_small _ _ N7) as B7.
  rewrite ?pow_2, ?pow_4 in *.
  pose proof (dt_us_cases (digits_val sy) (digits_val sm) (digits_val sd) (digits_val sh) (digits_val si) (digits_val ss) (digits_val sf * 10 ^ Z.of_nat (6 - len sf)) ltac:(lia) ltac:(lia) ltac:(lia) ltac:(lia) ltac:(lia) ltac:(lia) B7) as C.
  destruct (dt_us _ _ _ _ _ _ _) as [i|e]; cbn [bind] in H; [|discriminate]. destruct C as [C1 [C2 [C3 C4]]]. exists i. split; [|injection H as <-; reflexivity].
  rewrite app_nil_l, app_nil_r. eapply smdy; try eassumption. lia.
Qed.
Lemma mdy_err s e : strptime_Thompson s = Raise e -> e = ValueError.
Proof.
  unfold strptime_Thompson. intros H.
  destruct (directive 1 2 (lit "/") s) as [[sm r1]|] eqn:E1; cbn [bind snd fst] in H; [|apply directive_err in E1; congruence].
  destruct (directive 1 2 (lit "/") r1) as [[sd r2]|] eqn:E2; cbn [bind snd fst] in H; [|apply directive_err in E2; congruence].
  destruct (directive 4 4 (lit ":") r2) as [[sy r3]|] eqn:E3; cbn [bind snd fst] in H; [|apply directive_err in E3; congruence].
  destruct (directive 1 2 (lit ":") r3) as [[sh r4]|] eqn:E4; cbn [bind snd fst] in H; [|apply directive_err in E4; congruence].
  destruct (directive 1 2 (lit ":") r4) as [[si r5]|] eqn:E5; cbn [bind snd fst] in H; [|apply directive_err in E5; congruence].
  destruct (directive 1 2 (lit ".") r5) as [[ss r6]|] eqn:E6; cbn [bind snd fst] in H; [|apply directive_err in E6; congruence].
  destruct (directive 1 6 [] r6) as [[sf r7]|] eqn:E7; cbn [bind snd fst] in H; [|apply directive_err in E7; congruence].
  apply directive_inv in E1. apply directive_inv in E2. apply directive_inv in E3. apply directive_inv in E4. apply directive_inv in E5. apply directive_inv in E6. apply directive_inv in E7.
  destruct E1 as [-> [L1 D1]]. destruct E2 as [-> [L2 D2]]. destruct E3 as [-> [L3 D3]]. destruct E4 as [-> [L4 D4]]. destruct E5 as [-> [L5 D5]]. destruct E6 as [-> [L6 D6]]. destruct E7 as [-> [L7 D7]].
  destruct r7; [|congruence].
  pose proof (numeral_small _ _ _ _ (numeral_of_digits 1 2 sm D1 L1)) as B1. pose proof (numeral_small _ _ _ _ (numeral_of_digits 1 2 sd D2 L2)) as B2. pose proof (numeral_small _ _ _ _ (numeral_of_digits 4 4 sy D3 L3)) as B3.
  pose proof (numeral_small _ _ _ _ (numeral_of_digits 1 2 sh D4 L4)) as B4. pose proof (numeral_small _ _ _ _ (numeral_of_digits 1 2 si D5 L5)) as B5. pose proof (numeral_small _ _ _ _ (numeral_of_digits 1 2 ss D6 L6)) as B6.
  pose proof (fraction_small _ _ (numeral_of_digits 1 6 sf D7 L7)) as B7. rewrite ?pow_2, ?pow_4 in *.
  pose proof (dt_us_cases (digits_val sy) (digits_val sm) (digits_val sd) (digits_val sh) (digits_val si) (digits_val ss) (digits_val sf * 10 ^ Z.of_nat (6 - len sf)) ltac:(lia) ltac:(lia) ltac:(lia) ltac:(lia) ltac:(lia) ltac:(lia) B7) as C.
  destruct (dt_us _ _ _ _ _ _ _) as [i|e']; cbn [bind] in H; congruence.
Qed.
