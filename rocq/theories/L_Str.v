(** Lemmas on strings. *)
From Coq Require Import List ZArith Ascii String Bool Lia QArith.
From Verif Require Import M_Py L_Base M_Str S_Str.
Import ListNotations.
Open Scope Z_scope.

Local Notation len := List.length.

Lemma ascii_eqb_refl c : Ascii.eqb c c = true.
Proof. apply Ascii.eqb_eq. reflexivity. Qed.

Lemma str_eqb_eq a b : str_eqb a b = true <-> a = b.
Proof.
  revert b. induction a as [|x a IH]; intros [|y b]; simpl; split; intros H; try discriminate; auto.
  - apply andb_true_iff in H. destruct H as [H1 H2]. apply Ascii.eqb_eq in H1. apply IH in H2. congruence.
  - injection H as -> ->. rewrite ascii_eqb_refl. simpl. apply IH. reflexivity.
Qed.

Lemma str_eqb_neq a b : str_eqb a b = false <-> a <> b.
Proof.
  split.
  - intros H E. apply str_eqb_eq in E. congruence.
  - intros H. destruct (str_eqb a b) eqn:E; [|reflexivity]. apply str_eqb_eq in E. contradiction.
Qed.

Lemma prefixb_spec p s : prefixb p s = true <-> exists t, s = p ++ t.
Proof.
  revert s. induction p as [|x p IH]; intros s; simpl.
  - split; [intros _; exists s; reflexivity|reflexivity].
  - destruct s as [|y s].
    + split; [discriminate|]. intros [t E]. discriminate.
    + rewrite andb_true_iff, IH, Ascii.eqb_eq. split.
      * intros [-> [t ->]]. exists t. reflexivity.
      * intros [t E]. injection E as -> ->. split; [reflexivity|]. exists t. reflexivity.
Qed.

Lemma prefixb_app p t : prefixb p (p ++ t) = true.
Proof. apply prefixb_spec. exists t. reflexivity. Qed.

Lemma prefixb_false p s : prefixb p s = false <-> forall t, s <> p ++ t.
Proof.
  split.
  - intros H t E. assert (prefixb p s = true) by (apply prefixb_spec; exists t; exact E). congruence.
  - intros H. destruct (prefixb p s) eqn:E; [|reflexivity].
    apply prefixb_spec in E. destruct E as [t E]. exfalso. exact (H t E).
Qed.

Lemma containsb_spec sub s : containsb sub s = true <-> occurs sub s.
Proof.
  unfold occurs. induction s as [|c s IH]; cbn [containsb].
  - rewrite orb_false_r, prefixb_spec. split.
    + intros [t E]. exists [], t. exact E.
    + intros [a [b E]]. destruct a; [|discriminate]. exists b. exact E.
  - rewrite orb_true_iff, prefixb_spec, IH. split.
    + intros [[t E]|[a [b E]]].
      * exists [], t. exact E.
      * exists (c :: a), b. rewrite E. reflexivity.
    + intros [[|x a] [b E]].
      * left. exists b. exact E.
      * right. injection E as -> E. exists a, b. exact E.
Qed.

Lemma containsb_false sub s : containsb sub s = false <-> ~ occurs sub s.
Proof.
  split.
  - intros H E. apply containsb_spec in E. congruence.
  - intros H. destruct (containsb sub s) eqn:E; [|reflexivity]. apply containsb_spec in E. contradiction.
Qed.

Lemma occurs_char c s : occurs [c] s <-> In c s.
Proof.
  split.
  - intros [a [b ->]]. apply in_or_app. right. left. reflexivity.
  - intros H. apply in_split in H. destruct H as [a [b ->]]. exists a, b. reflexivity.
Qed.

(** ** split and join *)
Lemma split_go_nonnil sep s : forall k cur, split_go sep s k cur <> [].
Proof.
  induction s as [|c s IH]; intros k cur; cbn [split_go]; [discriminate|].
  destruct k; [|apply IH]. destruct (prefixb sep (c :: s)); [discriminate|apply IH].
Qed.

Lemma split_nonnil sep s : split sep s <> [].
Proof. apply split_go_nonnil. Qed.

Lemma split_go_skip sep : forall a s cur,
  split_go sep (a ++ s) (len a) cur = split_go sep s 0 cur.
Proof. induction a as [|c a IH]; intros s cur; [reflexivity|]. cbn [app len split_go]. apply IH. Qed.

Lemma split_go_none sep : forall s cur, sep <> [] -> ~ occurs sep s ->
  split_go sep s 0 cur = [rev cur ++ s].
Proof.
  induction s as [|c s IH]; intros cur Hs H; cbn [split_go].
  - rewrite app_nil_r. reflexivity.
  - destruct (prefixb sep (c :: s)) eqn:E.
    + exfalso. apply H. apply prefixb_spec in E. destruct E as [t E]. exists [], t. exact E.
    + rewrite IH; [|assumption|].
      * simpl. rewrite <- app_assoc. reflexivity.
      * intros [a [b E']]. apply H. exists (c :: a), b. rewrite E'. reflexivity.
Qed.

Lemma split_none sep s : sep <> [] -> ~ occurs sep s -> split sep s = [s].
Proof. intros Hs H. unfold split. rewrite split_go_none by assumption. reflexivity. Qed.

Lemma split_go_first sep b : sep <> [] -> forall a cur,
  none_before sep (a ++ sep ++ b) (len a) ->
  split_go sep (a ++ sep ++ b) 0 cur = (rev cur ++ a) :: split sep b.
Proof.
  intros Hs. induction a as [|c a IH]; intros cur H.
  - destruct sep as [|x sep]; [congruence|]. cbn [app split_go].
    change (x :: sep ++ b) with ((x :: sep) ++ b). rewrite prefixb_app.
    rewrite app_nil_r. f_equal. cbn [len]. rewrite Nat.sub_succ, Nat.sub_0_r. apply split_go_skip.
  - cbn [app split_go].
    destruct (prefixb sep (c :: a ++ sep ++ b)) eqn:E.
    + apply prefixb_spec in E. destruct E as [t E]. exfalso.
      specialize (H [] t). cbn in H. specialize (H E). lia.
    + rewrite IH.
      * simpl. rewrite <- app_assoc. reflexivity.
      * intros p q E'. specialize (H (c :: p) q). cbn in H. rewrite E' in H. specialize (H eq_refl). cbn in H. lia.
Qed.

Lemma split_first sep a b : sep <> [] -> none_before sep (a ++ sep ++ b) (len a) ->
  split sep (a ++ sep ++ b) = a :: split sep b.
Proof. intros Hs H. unfold split at 1. rewrite split_go_first by assumption. reflexivity. Qed.

Lemma none_before_char c a b : ~ In c a -> none_before [c] (a ++ [c] ++ b) (len a).
Proof.
  intros H p q E. destruct (le_lt_dec (len a) (len p)) as [|Hlt]; [assumption|exfalso].
  apply H. cbn [app] in E.
  assert (En : nth (len p) (a ++ c :: b) c = nth (len p) (p ++ c :: q) c) by (rewrite E; reflexivity).
  rewrite app_nth1 in En by exact Hlt.
  rewrite (app_nth2 p) in En by lia. rewrite Nat.sub_diag in En. cbn in En.
  rewrite <- En. apply nth_In. exact Hlt.
Qed.

Lemma split_char_none c s : ~ In c s -> split [c] s = [s].
Proof. intros H. apply split_none; [discriminate|]. rewrite occurs_char. exact H. Qed.

Lemma split_char_cons c a b : ~ In c a -> split [c] (a ++ c :: b) = a :: split [c] b.
Proof.
  intros H. change (a ++ c :: b) with (a ++ [c] ++ b).
  apply split_first; [discriminate|]. apply none_before_char. exact H.
Qed.

Lemma split_char_join c parts : parts <> [] -> Forall (fun p => ~ In c p) parts ->
  split [c] (join [c] parts) = parts.
Proof.
  induction parts as [|p parts IH]; intros Hn H; [congruence|].
  inversion H as [|x l Hp Hps]; subst x l.
  destruct parts as [|q parts].
  - simpl. apply split_char_none. exact Hp.
  - change (join [c] (p :: q :: parts)) with (p ++ c :: join [c] (q :: parts)).
    rewrite split_char_cons by exact Hp. rewrite IH; [reflexivity|discriminate|exact Hps].
Qed.

(** case analysis on a separator *)
Lemma first_occurrence sep s : occurs sep s ->
  exists a b, s = a ++ sep ++ b /\ none_before sep s (len a).
Proof.
  induction s as [|c s IH]; intros [a [b E]].
  - destruct a; [|discriminate]. exists [], b. split; [exact E|]. intros p q _. simpl. lia.
  - destruct (prefixb sep (c :: s)) eqn:Ep.
    + apply prefixb_spec in Ep. destruct Ep as [t Et]. exists [], t. split; [exact Et|].
      intros p q _. simpl. lia.
    + destruct a as [|x a].
      * exfalso. rewrite prefixb_false in Ep. apply (Ep b). exact E.
      * injection E as -> E. destruct IH as [a' [b' [E' H']]]; [exists a, b; exact E|].
        exists (x :: a'), b'. split; [rewrite E'; reflexivity|].
        intros p q Epq. destruct p as [|y p].
        -- exfalso. rewrite prefixb_false in Ep. apply (Ep q). exact Epq.
        -- injection Epq as -> Epq. specialize (H' p q Epq). simpl. lia.
Qed.

Lemma split_ind (sep : str) (P : str -> Prop) : sep <> [] ->
  (forall s, ~ occurs sep s -> P s) ->
  (forall a b, none_before sep (a ++ sep ++ b) (len a) -> P b -> P (a ++ sep ++ b)) ->
  forall s, P s.
Proof.
  intros Hs H0 H1 s. remember (len s) as n eqn:En. revert s En.
  induction n as [n IH] using lt_wf_ind. intros s En.
  destruct (containsb sep s) eqn:E.
  - apply containsb_spec in E. destruct (first_occurrence sep s E) as [a [b [Es Hn]]].
    subst s. apply H1; [exact Hn|]. apply (IH (len b)); [|reflexivity].
    subst n. rewrite !app_length. destruct sep; [congruence|]. simpl. lia.
  - apply containsb_false in E. apply H0. exact E.
Qed.

Lemma join_cons sep p ps : ps <> [] -> join sep (p :: ps) = p ++ sep ++ join sep ps.
Proof. destruct ps; [congruence|reflexivity]. Qed.

Lemma join_split sep s : sep <> [] -> join sep (split sep s) = s.
Proof.
  intros Hs. pattern s. apply (split_ind sep); [exact Hs| |].
  - intros t Ht. rewrite split_none by assumption. reflexivity.
  - intros a b Hn IH. rewrite split_first by assumption.
    rewrite join_cons by apply split_nonnil. rewrite IH. reflexivity.
Qed.

Lemma split_parts_clean sep s : sep <> [] -> Forall (fun p => ~ occurs sep p) (split sep s).
Proof.
  intros Hs. pattern s. apply (split_ind sep); [exact Hs| |].
  - intros t Ht. rewrite split_none by assumption. constructor; [exact Ht|constructor].
  - intros a b Hn IH. rewrite split_first by assumption. constructor; [|exact IH].
    intros [p [q E]]. specialize (Hn p (q ++ sep ++ b)). subst a.
    rewrite <- !app_assoc in Hn. specialize (Hn eq_refl).
    rewrite !app_length in Hn. destruct sep; [congruence|]. simpl in Hn. lia.
Qed.

Lemma split_char_clean c s : Forall (fun p => ~ In c p) (split [c] s).
Proof.
  eapply Forall_impl; [|apply split_parts_clean; discriminate].
  intros p H Hin. apply H. apply occurs_char. exact Hin.
Qed.

Lemma sub_lit_Subst old new s : old <> [] -> Subst old new s (sub_lit old new s).
Proof.
  intros Hs. unfold sub_lit. pattern s. apply (split_ind old); [exact Hs| |].
  - intros t Ht. rewrite split_none by assumption. constructor. exact Ht.
  - intros a b Hn IH. rewrite split_first by assumption.
    rewrite join_cons by apply split_nonnil. constructor; assumption.
Qed.

Lemma Subst_unique old new s t t' : old <> [] -> Subst old new s t -> Subst old new s t' -> t = t'.
Proof.
  intros Ho H. revert t'. induction H as [s Hn|a b b' Hf H IH]; intros t' H'.
  - inversion H' as [s' Hn' E1 E2|a b b' Hf H0 E1 E2].
    + reflexivity.
    + exfalso. apply Hn. exists a, b. congruence.
  - inversion H' as [s' Hn' E1 E2|a2 b2 b2' Hf2 H2 E1 E2].
    + exfalso. apply Hn'. exists a, b. reflexivity.
    + assert (L1 : (len a <= len a2)%nat) by (apply (Hf a2 b2); congruence).
      assert (L2 : (len a2 <= len a)%nat) by (apply (Hf2 a b); congruence).
      assert (Ea : a2 = a).
      { assert (E : firstn (len a) (a2 ++ old ++ b2) = firstn (len a) (a ++ old ++ b)) by (rewrite E1; reflexivity).
        rewrite !firstn_app in E. replace (len a - len a2)%nat with O in E by lia.
        rewrite Nat.sub_diag in E. cbn [firstn] in E. rewrite !app_nil_r in E.
        rewrite firstn_all in E. replace (len a) with (len a2) in E by lia. rewrite firstn_all in E. exact E. }
      subst a2. apply app_inv_head in E1. apply app_inv_head in E1. subst b2.
      f_equal. f_equal. apply IH. exact H2.
Qed.

(** ** white space *)
Definition all_ascii : list ascii := map ascii_of_nat (seq 0 256).

Lemma all_ascii_in c : In c all_ascii.
Proof.
  unfold all_ascii. apply in_map_iff. exists (nat_of_ascii c). split; [apply ascii_nat_embedding|].
  apply in_seq. pose proof (nat_ascii_bounded c). lia.
Qed.

Lemma ascii_forallb (P : ascii -> bool) : forallb P all_ascii = true -> forall c, P c = true.
Proof. intros H c. rewrite forallb_forall in H. apply H. apply all_ascii_in. Qed.

Definition spaceb (c : ascii) : bool :=
  existsb (Nat.eqb (nat_of_ascii c)) [9; 10; 11; 12; 13; 28; 29; 30; 31; 32; 133; 160]%nat.

Lemma spaceb_spec c : spaceb c = true <-> space c.
Proof.
  unfold spaceb, space. rewrite existsb_exists. split.
  - intros [x [Hx E]]. apply Nat.eqb_eq in E. subst x. exact Hx.
  - intros H. exists (nat_of_ascii c). split; [exact H|]. apply Nat.eqb_refl.
Qed.

Lemma is_space_spaceb c : is_space c = spaceb c.
Proof.
  apply Bool.eqb_prop. revert c. apply ascii_forallb. vm_compute. reflexivity.
Qed.

Lemma is_space_spec c : is_space c = true <-> space c.
Proof. rewrite is_space_spaceb. apply spaceb_spec. Qed.

Lemma is_space_false c : is_space c = false <-> ~ space c.
Proof.
  rewrite <- is_space_spec. destruct (is_space c); split; intros H; try reflexivity; try discriminate.
  - exfalso. apply H. reflexivity.
Qed.

Definition digitb (c : ascii) : bool := existsb (Ascii.eqb c) (list_ascii_of_string "0123456789").
Lemma digitb_spec c : digitb c = true <-> digit c.
Proof.
  unfold digitb, digit. rewrite existsb_exists. split.
  - intros [x [Hx E]]. apply Ascii.eqb_eq in E. subst x. exact Hx.
  - intros H. exists c. split; [exact H|]. apply ascii_eqb_refl.
Qed.
Lemma is_digit_digitb c : is_digit c = digitb c.
Proof. apply Bool.eqb_prop. revert c. apply ascii_forallb. vm_compute. reflexivity. Qed.
Lemma is_digit_spec c : is_digit c = true <-> digit c.
Proof. rewrite is_digit_digitb. apply digitb_spec. Qed.

Lemma drop_while_split f s : exists a, s = a ++ drop_while f s /\ Forall (fun c => f c = true) a /\
  (forall c r, drop_while f s = c :: r -> f c = false).
Proof.
  induction s as [|c s [a [E [H1 H2]]]]; simpl.
  - exists []. split; [reflexivity|]. split; [constructor|]. discriminate.
  - destruct (f c) eqn:Ec.
    + exists (c :: a). split; [rewrite E at 1; reflexivity|]. split; [constructor; assumption|exact H2].
    + exists []. split; [reflexivity|]. split; [constructor|]. intros d r E2. injection E2 as <- <-. exact Ec.
Qed.

Lemma drop_while_id f s : (forall c r, s = c :: r -> f c = false) -> drop_while f s = s.
Proof. destruct s as [|c s]; intros H; simpl; [reflexivity|]. rewrite (H c s eq_refl). reflexivity. Qed.

Lemma drop_while_app f a s : Forall (fun c => f c = true) a -> drop_while f (a ++ s) = drop_while f s.
Proof. induction 1 as [|c a Hc H IH]; simpl; [reflexivity|]. rewrite Hc. exact IH. Qed.

Lemma rev_cons_last A (s : list A) c r : rev s = c :: r -> s = rev r ++ [c].
Proof. intros E. rewrite <- (rev_involutive s), E. reflexivity. Qed.

Lemma strip_by_spec f s : exists a b, s = a ++ strip_by f s ++ b /\
  Forall (fun c => f c = true) a /\ Forall (fun c => f c = true) b /\
  (forall c r, strip_by f s = c :: r -> f c = false) /\
  (forall c r, strip_by f s = r ++ [c] -> f c = false).
Proof.
  unfold strip_by, rstrip_by, lstrip_by.
  destruct (drop_while_split f s) as [a [E [H1 H2]]].
  set (m := drop_while f s) in *.
  destruct (drop_while_split f (rev m)) as [b [E' [H1' H2']]].
  set (w := drop_while f (rev m)) in *.
  assert (Em : m = rev w ++ rev b).
  { rewrite <- (rev_involutive m), E', rev_app_distr. reflexivity. }
  exists a, (rev b). split; [rewrite E, Em at 1; reflexivity|]. split; [exact H1|].
  split; [apply Forall_rev; exact H1'|]. split.
  - intros c r Ec. apply (H2 c (r ++ rev b)). rewrite Em, Ec. reflexivity.
  - intros c r Ec. apply (H2' c (rev r)).
    rewrite <- (rev_involutive w), Ec, rev_app_distr. reflexivity.
Qed.

Lemma strip_trimmed s : trimmed s (strip s).
Proof.
  destruct (strip_by_spec is_space s) as [a [b [E [H1 [H2 [H3 H4]]]]]].
  exists a, b. split; [exact E|].
  split; [eapply Forall_impl; [|exact H1]; intros c Hc; apply is_space_spec; exact Hc|].
  split; [eapply Forall_impl; [|exact H2]; intros c Hc; apply is_space_spec; exact Hc|].
  split.
  - intros c r Ec. apply is_space_false. exact (H3 c r Ec).
  - intros c r Ec. apply is_space_false. exact (H4 c r Ec).
Qed.

Lemma rstrip_by_id f s : (forall c r, s = r ++ [c] -> f c = false) -> rstrip_by f s = s.
Proof.
  intros H. unfold rstrip_by. rewrite drop_while_id; [apply rev_involutive|].
  intros c r E. apply (H c (rev r)). apply rev_cons_last. exact E.
Qed.

Lemma rstrip_by_app f s b : Forall (fun c => f c = true) b -> rstrip_by f (s ++ b) = rstrip_by f s.
Proof.
  intros H. unfold rstrip_by. rewrite rev_app_distr, drop_while_app; [reflexivity|].
  apply Forall_rev. exact H.
Qed.

Lemma strip_by_unique f s a t b : s = a ++ t ++ b ->
  Forall (fun c => f c = true) a -> Forall (fun c => f c = true) b ->
  (forall c r, t = c :: r -> f c = false) -> (forall c r, t = r ++ [c] -> f c = false) ->
  strip_by f s = t.
Proof.
  intros -> Ha Hb H1 H2. unfold strip_by, lstrip_by. rewrite drop_while_app by exact Ha.
  destruct t as [|c t].
  - simpl. assert (E : drop_while f b = []).
    { clear - Hb. induction Hb as [|c b Hc Hb IH]; simpl; [reflexivity|]. rewrite Hc. exact IH. }
    rewrite E. reflexivity.
  - rewrite drop_while_id.
    + rewrite rstrip_by_app by exact Hb. apply rstrip_by_id. exact H2.
    + intros d r E. cbn in E. injection E as <- _. exact (H1 c t eq_refl).
Qed.

Lemma trimmed_strip s t : trimmed s t -> strip s = t.
Proof.
  intros [a [b [E [Ha [Hb [H1 H2]]]]]]. unfold strip. eapply strip_by_unique; [exact E| | | |].
  - eapply Forall_impl; [|exact Ha]. intros c Hc. apply is_space_spec. exact Hc.
  - eapply Forall_impl; [|exact Hb]. intros c Hc. apply is_space_spec. exact Hc.
  - intros c r Ec. apply is_space_false. exact (H1 c r Ec).
  - intros c r Ec. apply is_space_false. exact (H2 c r Ec).
Qed.

Lemma strip_id s : Forall (fun c => is_space c = false) s -> strip s = s.
Proof.
  intros H. apply trimmed_strip. exists [], []. split; [rewrite app_nil_r; reflexivity|].
  split; [constructor|]. split; [constructor|].
  rewrite Forall_forall in H. split.
  - intros c r E. apply is_space_false. apply H. rewrite E. left. reflexivity.
  - intros c r E. apply is_space_false. apply H. rewrite E. apply in_or_app. right. left. reflexivity.
Qed.

Lemma strip_strip s : strip (strip s) = strip s.
Proof.
  destruct (strip_trimmed s) as [a [b [E [Ha [Hb [H1 H2]]]]]].
  apply trimmed_strip. exists [], []. split; [rewrite app_nil_r; reflexivity|].
  split; [constructor|]. split; [constructor|]. split; assumption.
Qed.

(** ** spans *)
Lemma span_spec f s : let '(a, b) := span f s in
  s = a ++ b /\ Forall (fun c => f c = true) a /\ (forall c r, b = c :: r -> f c = false).
Proof.
  induction s as [|c s IH]; simpl.
  - split; [reflexivity|]. split; [constructor|]. discriminate.
  - destruct (f c) eqn:E.
    + destruct (span f s) as [a b]. destruct IH as [E1 [E2 E3]].
      split; [rewrite E1; reflexivity|]. split; [constructor; assumption|exact E3].
    + split; [reflexivity|]. split; [constructor|]. intros d r Ed. injection Ed as <- <-. exact E.
Qed.

Lemma span_app f a b : Forall (fun c => f c = true) a -> (forall c r, b = c :: r -> f c = false) ->
  span f (a ++ b) = (a, b).
Proof.
  intros Ha Hb. induction Ha as [|c a Hc Ha IH]; simpl.
  - destruct b as [|c b]; [reflexivity|]. simpl. rewrite (Hb c b eq_refl). reflexivity.
  - rewrite Hc, IH. reflexivity.
Qed.

(** ** numerals *)
Lemma digits_val_acc s a : fold_left (fun a c => 10 * a + digit_val c) s a =
  a * 10 ^ Z.of_nat (len s) + digits_val s.
Proof.
  unfold digits_val. revert a. induction s as [|c s IH]; intros a.
  - simpl. lia.
  - cbn [fold_left]. rewrite IH, (IH (10 * 0 + digit_val c)).
    cbn [len]. rewrite Nat2Z.inj_succ, Z.pow_succ_r by lia. ring.
Qed.

Lemma digits_val_app a b : digits_val (a ++ b) = digits_val a * 10 ^ Z.of_nat (len b) + digits_val b.
Proof. unfold digits_val at 1. rewrite fold_left_app. rewrite digits_val_acc. reflexivity. Qed.

Lemma digits_val_cons c s : digits_val (c :: s) = digit_val c * 10 ^ Z.of_nat (len s) + digits_val s.
Proof. change (c :: s) with ([c] ++ s). rewrite digits_val_app. reflexivity. Qed.

Lemma digit_val_bound c : is_digit c = true -> 0 <= digit_val c <= 9.
Proof.
  unfold is_digit, digit_val. rewrite andb_true_iff, !N.leb_le. intros [H1 H2]. lia.
Qed.

Lemma digits_val_bound s : Forall (fun c => is_digit c = true) s ->
  0 <= digits_val s < 10 ^ Z.of_nat (len s).
Proof.
  induction 1 as [|c s Hc H IH]; [unfold digits_val; simpl; lia|].
  rewrite digits_val_cons. cbn [len]. rewrite Nat2Z.inj_succ, Z.pow_succ_r by lia.
  pose proof (digit_val_bound c Hc). nia.
Qed.

Lemma digit_char_digit z : is_digit (digit_char z) = true.
Proof.
  unfold is_digit, digit_char.
  assert (H : 0 <= z mod 10 < 10) by (apply Z.mod_pos_bound; lia).
  set (w := z mod 10) in *. clearbody w.
  rewrite N_ascii_embedding by lia.
  rewrite andb_true_iff, !N.leb_le. lia.
Qed.

Lemma digit_char_val z : digit_val (digit_char z) = z mod 10.
Proof.
  unfold digit_val, digit_char.
  assert (H : 0 <= z mod 10 < 10) by (apply Z.mod_pos_bound; lia).
  set (w := z mod 10) in *. clearbody w.
  rewrite N_ascii_embedding by lia. lia.
Qed.

Lemma pad_length n z : len (pad n z) = n.
Proof. revert z; induction n; intros z; simpl; [reflexivity|]. rewrite app_length, IHn. simpl. lia. Qed.

Lemma pad_digits n z : Forall (fun c => is_digit c = true) (pad n z).
Proof.
  revert z. induction n; intros z; simpl; [constructor|].
  apply Forall_app. split; [apply IHn|]. constructor; [apply digit_char_digit|constructor].
Qed.

Lemma pad_val n z : digits_val (pad n z) = z mod 10 ^ Z.of_nat n.
Proof.
  revert z. induction n as [|n IH]; intros z.
  - simpl. rewrite Z.mod_1_r. reflexivity.
  - cbn [pad]. rewrite digits_val_app, IH. cbn [len].
    change (digits_val [digit_char z]) with (10 * 0 + digit_val (digit_char z)).
    rewrite digit_char_val. change (Z.of_nat 1) with 1.
    rewrite Nat2Z.inj_succ, Z.pow_succ_r by lia.
    rewrite Z.rem_mul_r by lia. lia.
Qed.

Lemma pad_val_small n z : 0 <= z < 10 ^ Z.of_nat n -> digits_val (pad n z) = z.
Proof. intros H. rewrite pad_val. apply Z.mod_small. exact H. Qed.

Lemma digit_not_space c : is_digit c = true -> is_space c = false.
Proof.
  intros H. assert (E : implb (is_digit c) (negb (is_space c)) = true).
  { revert c H. intros c _. revert c. apply ascii_forallb. vm_compute. reflexivity. }
  rewrite H in E. simpl in E. destruct (is_space c); [discriminate|reflexivity].
Qed.

Lemma digit_neq c d : is_digit c = true -> is_digit d = false -> Ascii.eqb c d = false.
Proof.
  intros H1 H2. destruct (Ascii.eqb c d) eqn:E; [|reflexivity].
  apply Ascii.eqb_eq in E. congruence.
Qed.

Lemma us_ok_no_us s : Forall (fun c => Ascii.eqb c "_" = false) s -> forall b, us_ok b s = true.
Proof. induction 1 as [|c s Hc H IH]; intros b; simpl; [reflexivity|]. rewrite Hc. apply IH. Qed.

Lemma remove_char_none x s : Forall (fun c => Ascii.eqb c x = false) s -> remove_char x s = s.
Proof. induction 1 as [|c s Hc H IH]; [reflexivity|]. unfold remove_char in *. simpl. rewrite Hc. simpl. rewrite IH. reflexivity. Qed.

Lemma take_sign_digit s : Forall (fun c => is_digit c = true) s -> take_sign s = (false, s).
Proof.
  destruct 1 as [|c s Hc H]; [reflexivity|]. simpl.
  rewrite (digit_neq c "+" Hc), (digit_neq c "-" Hc) by reflexivity. reflexivity.
Qed.

Lemma py_int_digits s : s <> [] -> Forall (fun c => is_digit c = true) s -> py_int s = Ok (digits_val s).
Proof.
  intros Hn H. unfold py_int. rewrite strip_id.
  2:{ eapply Forall_impl; [|exact H]. intros c. apply digit_not_space. }
  assert (Hu : Forall (fun c => Ascii.eqb c "_" = false) s).
  { eapply Forall_impl; [|exact H]. intros c Hc. apply digit_neq; [exact Hc|reflexivity]. }
  rewrite us_ok_no_us by exact Hu. cbn [negb]. rewrite remove_char_none by exact Hu.
  rewrite take_sign_digit by exact H.
  destruct s as [|c s]; [congruence|].
  replace (forallb is_digit (c :: s)) with true; [reflexivity|].
  symmetry. apply forallb_forall. rewrite Forall_forall in H. exact H.
Qed.

Lemma py_int_pad n z : (0 < n)%nat -> 0 <= z < 10 ^ Z.of_nat n -> py_int (pad n z) = Ok z.
Proof.
  intros Hn Hz. rewrite py_int_digits.
  - rewrite pad_val_small by exact Hz. reflexivity.
  - intros E. pose proof (pad_length n z). rewrite E in H. simpl in H. lia.
  - apply pad_digits.
Qed.

(** ** float() accepts exactly the grammar *)
Lemma us_ok_spec : forall t p,
  us_ok p t = true <->
  (forall a b, t = a ++ "_"%char :: b ->
    (match a with [] => p = true | _ => exists a' d, a = a' ++ [d] /\ is_digit d = true end) /\
    (exists d b', b = d :: b' /\ is_digit d = true)).
Proof.
  induction t as [|c t IH]; intros p; cbn [us_ok].
  - split; [|reflexivity]. intros _ a b E. destruct a; discriminate.
  - destruct (Ascii.eqb c "_") eqn:Ec.
    + apply Ascii.eqb_eq in Ec. subst c. rewrite !andb_true_iff, IH. split.
      * intros [[Hp Hd] H] a b E. destruct a as [|x a].
        -- injection E as <-. split; [exact Hp|]. destruct t as [|d t]; [discriminate|]. exists d, t. auto.
        -- injection E as <- E. destruct (H a b E) as [H1 H2]. split; [|exact H2].
           destruct a as [|y a]; [discriminate|]. destruct H1 as [a' [d [E1 E2]]].
           exists ("_"%char :: a'), d. rewrite E1. auto.
      * intros H. split; [split|].
        -- apply (H [] t eq_refl).
        -- destruct (H [] t eq_refl) as [_ [d [b' [-> Hd]]]]. exact Hd.
        -- intros a b E. destruct (H ("_"%char :: a) b) as [H1 H2]; [rewrite E; reflexivity|].
           split; [|exact H2]. destruct H1 as [a' [d [E1 E2]]].
           destruct a as [|y a].
           ++ destruct a' as [|z a']; [|destruct a'; discriminate]. injection E1 as <-. discriminate.
           ++ destruct a' as [|z a']; [discriminate|]. injection E1 as _ E1. exists a', d. auto.
    + rewrite IH. split.
      * intros H a b E. destruct a as [|x a].
        -- injection E as -> _. rewrite ascii_eqb_refl in Ec. discriminate.
        -- injection E as <- E. destruct (H a b E) as [H1 H2]. split; [|exact H2].
           destruct a as [|y a]; [exists [], c; auto|]. destruct H1 as [a' [d [E1 E2]]].
           exists (c :: a'), d. rewrite E1. auto.
      * intros H a b E. destruct (H (c :: a) b) as [H1 H2]; [rewrite E; reflexivity|].
        split; [|exact H2]. destruct H1 as [a' [d [E1 E2]]].
        destruct a as [|y a].
        -- destruct a' as [|z a']; [|destruct a'; discriminate]. injection E1 as <-. exact E2.
        -- destruct a' as [|z a']; [discriminate|]. injection E1 as _ E1. exists a', d. auto.
Qed.

Lemma us_ok_well t : us_ok false t = true <-> well_underscored t.
Proof.
  rewrite us_ok_spec. unfold well_underscored. split; intros H a b E; destruct (H a b E) as [H1 H2]; split.
  - destruct a; [discriminate|]. destruct H1 as [a' [d [E1 E2]]]. exists a', d. rewrite <- is_digit_spec. auto.
  - destruct H2 as [d [b' [E1 E2]]]. exists d, b'. rewrite <- is_digit_spec. auto.
  - destruct H1 as [a' [d [E1 E2]]]. rewrite <- is_digit_spec in E2.
    destruct a; [destruct a'; discriminate|]. exists a', d. auto.
  - destruct H2 as [d [b' [E1 E2]]]. exists d, b'. rewrite is_digit_spec. auto.
Qed.

Lemma Forall_digit s : Forall digit s <-> Forall (fun c => is_digit c = true) s.
Proof. rewrite !Forall_forall. split; intros H c Hc; apply is_digit_spec; apply H; exact Hc. Qed.

Lemma take_sign_spec s : exists sg, let '(n, d) := take_sign s in s = sg ++ d /\ sign_opt sg /\
  (n = true <-> sg = ["-"%char]).
Proof.
  destruct s as [|c s]; simpl.
  - exists []. split; [reflexivity|]. split; [constructor|]. split; discriminate.
  - destruct (Ascii.eqb_spec c "+"); [subst; exists ["+"%char]; split; [reflexivity|]; split; [constructor|]; split; discriminate|].
    destruct (Ascii.eqb_spec c "-"); [subst; exists ["-"%char]; split; [reflexivity|]; split; [constructor|]; split; reflexivity|].
    exists []. split; [reflexivity|]. split; [constructor|]. split; discriminate.
Qed.

Lemma take_sign_app sg d : sign_opt sg -> (forall c r, d = c :: r -> c <> "+"%char /\ c <> "-"%char) ->
  exists n, take_sign (sg ++ d) = (n, d).
Proof.
  intros H Hd. destruct H; simpl.
  - destruct d as [|c d]; [exists false; reflexivity|]. simpl.
    destruct (Hd c d eq_refl) as [H1 H2].
    destruct (Ascii.eqb_spec c "+"); [contradiction|]. destruct (Ascii.eqb_spec c "-"); [contradiction|].
    exists false. reflexivity.
  - exists false; reflexivity.
  - exists true; reflexivity.
Qed.

Lemma digit_not_sign c : is_digit c = true -> c <> "+"%char /\ c <> "-"%char.
Proof. intros H. split; intros ->; discriminate. Qed.

Lemma forallb_Forall f (s : str) : forallb f s = true <-> Forall (fun c => f c = true) s.
Proof. rewrite forallb_forall, Forall_forall. reflexivity. Qed.

(** the exponent part, as parsed *)
Definition exp_part (r : str) : res unit :=
  match r with
  | [] => Ok tt
  | c :: r' =>
      if Ascii.eqb c "e" || Ascii.eqb c "E" then
        let '(eneg, d) := take_sign r' in
        match d with [] => Raise ValueError | _ => if forallb is_digit d then Ok tt else Raise ValueError end
      else Raise ValueError
  end.

Lemma exp_part_spec r : exp_part r = Ok tt <-> exponent_opt r.
Proof.
  destruct r as [|c r]; cbn [exp_part].
  - split; [constructor|reflexivity].
  - split.
    + destruct (Ascii.eqb c "e" || Ascii.eqb c "E") eqn:E; [|discriminate].
      destruct (take_sign_spec r) as [sg Hsg]. destruct (take_sign r) as [n d].
      destruct Hsg as [-> [Hs _]]. destruct d as [|x d]; [discriminate|].
      destruct (forallb is_digit (x :: d)) eqn:Ed; [|discriminate]. intros _.
      constructor.
      * apply orb_true_iff in E. destruct E as [E|E]; apply Ascii.eqb_eq in E; auto.
      * exact Hs.
      * split; [discriminate|]. apply Forall_digit. apply forallb_Forall. exact Ed.
    + intros H. inversion H as [|e sg d He Hs [Hd1 Hd2] E1]. subst.
      replace (Ascii.eqb c "e" || Ascii.eqb c "E") with true
        by (symmetry; apply orb_true_iff; destruct He as [->| ->]; [left|right]; reflexivity).
      apply Forall_digit in Hd2.
      destruct (take_sign_app sg d Hs) as [n E].
      { intros x r E. subst d. inversion Hd2; subst. apply digit_not_sign. assumption. }
      rewrite E. destruct d as [|x d]; [congruence|].
      replace (forallb is_digit (x :: d)) with true by (symmetry; apply forallb_Forall; exact Hd2). reflexivity.
Qed.

Lemma exponent_nondigit r : exponent_opt r -> forall c t, r = c :: t -> is_digit c = false /\ c <> "."%char.
Proof.
  intros H c t E. destruct H as [|e sg d He _ _]; [discriminate|]. injection E as <- _.
  destruct He as [->| ->]; split; (reflexivity || discriminate).
Qed.

Lemma parse_dec_spec neg s : (exists v, parse_dec neg s = Ok v) <-> number s.
Proof.
  assert (Aux : forall i f r, (exists v, match i ++ f with
    | [] => Raise ValueError
    | _ => let m := signed neg (digits_val (i ++ f)) in let e := - Z.of_nat (List.length f) in
      match r with
      | [] => Ok (FDec m e)
      | c :: r' => if Ascii.eqb c "e" || Ascii.eqb c "E" then
            let '(eneg, d) := take_sign r' in
            match d with [] => Raise ValueError
            | _ => if forallb is_digit d then Ok (FDec m (e + signed eneg (digits_val d))) else Raise ValueError end
          else Raise ValueError end end = Ok v) <-> (i ++ f <> [] /\ exp_part r = Ok tt)).
  { intros i f r. destruct (i ++ f) as [|y w]; [split; [intros [v E]; discriminate|intros [H _]; congruence]|].
    cbv zeta. unfold exp_part. destruct r as [|c r]; [split; [split; [discriminate|reflexivity]|eexists; reflexivity]|].
    destruct (_ || _); [|split; [intros [v E]; discriminate|intros [_ E]; discriminate]].
    destruct (take_sign r) as [n d]. destruct d as [|x d]; [split; [intros [v E]; discriminate|intros [_ E]; discriminate]|].
    destruct (forallb _ _); [split; [split; [discriminate|reflexivity]|eexists; reflexivity]|].
    split; [intros [v E]; discriminate|intros [_ E]; discriminate]. }
  unfold parse_dec. pose proof (span_spec is_digit s) as Hs. destruct (span is_digit s) as [i r] eqn:Es.
  destruct Hs as [E1 [E2 E3]]. split.
  - destruct r as [|c r].
    + intros H. apply (proj1 (Aux i [] [])) in H. destruct H as [H _]. rewrite !app_nil_r in *. subst s.
      rewrite <- (app_nil_r i). apply nb_int; [|constructor]. split; [exact H|]. apply Forall_digit. exact E2.
    + destruct (Ascii.eqb_spec c ".") as [->|Hne].
      * pose proof (span_spec is_digit r) as Hr. destruct (span is_digit r) as [f r2].
        destruct Hr as [F1 [F2 F3]]. intros H. apply Aux in H. destruct H as [H He].
        apply exp_part_spec in He. subst s r.
        destruct i as [|a i]; destruct f as [|b f].
        -- simpl in H. congruence.
        -- apply nb_frac; [|exact He]. split; [discriminate|]. apply Forall_digit. exact F2.
        -- apply nb_point; [|exact He]. split; [discriminate|]. apply Forall_digit. exact E2.
        -- apply nb_both; [| |exact He]; (split; [discriminate|]; apply Forall_digit; assumption).
      * intros H. apply (proj1 (Aux i [] (c :: r))) in H. destruct H as [H He]. rewrite app_nil_r in H.
        apply exp_part_spec in He. subst s. apply nb_int; [|exact He]. split; [exact H|]. apply Forall_digit. exact E2.
  - intros H. destruct H as [i0 x [N0 D0] Hx|i0 x [N0 D0] Hx|i0 f0 x [N0 D0] [N1 D1] Hx|f0 x [N1 D1] Hx];
      try (apply Forall_digit in D0); try (apply Forall_digit in D1); pose proof (exponent_nondigit x Hx) as Hxn.
    + rewrite span_app in Es; [|exact D0|intros c t E; apply (Hxn c t E)]. injection Es as <- <-.
      destruct x as [|c x].
      * apply (proj2 (Aux i0 [] [])). rewrite app_nil_r. split; [exact N0|reflexivity].
      * destruct (Ascii.eqb_spec c ".") as [->|_]; [destruct (Hxn _ _ eq_refl); congruence|].
        apply (proj2 (Aux i0 [] (c :: x))). rewrite app_nil_r. split; [exact N0|]. apply exp_part_spec. exact Hx.
    + rewrite span_app in Es; [|exact D0|intros c t E; injection E as <- _; reflexivity]. injection Es as <- <-.
      rewrite ascii_eqb_refl. replace (span is_digit x) with (@nil ascii, x).
      * apply Aux. rewrite app_nil_r. split; [exact N0|]. apply exp_part_spec. exact Hx.
      * symmetry. apply (span_app is_digit [] x); [constructor|]. intros c t E. apply (Hxn c t E).
    + rewrite span_app in Es; [|exact D0|intros c t E; injection E as <- _; reflexivity]. injection Es as <- <-.
      rewrite ascii_eqb_refl. rewrite span_app; [|exact D1|intros c t E; apply (Hxn c t E)].
      apply Aux. split; [|apply exp_part_spec; exact Hx]. destruct i0; [congruence|discriminate].
    + change ("."%char :: f0 ++ x) with ([] ++ "."%char :: f0 ++ x) in Es.
      rewrite span_app in Es; [|constructor|intros c t E; injection E as <- _; reflexivity]. injection Es as <- <-.
      rewrite ascii_eqb_refl. rewrite span_app; [|exact D1|intros c t E; apply (Hxn c t E)].
      apply Aux. split; [exact N1|apply exp_part_spec; exact Hx].
Qed.

Lemma number_not_sign s : number s -> forall c r, s = c :: r -> c <> "+"%char /\ c <> "-"%char.
Proof.
  intros H c r E.
  assert (D : forall i x, digits i -> i ++ x = c :: r -> c <> "+"%char /\ c <> "-"%char).
  { intros i x [N F] Ei. destruct i as [|y i]; [congruence|]. injection Ei as <- _.
    apply Forall_digit in F. inversion F; subst. apply digit_not_sign. assumption. }
  destruct H as [i x Hi Hx|i x Hi Hx|i f x Hi Hf Hx|f x Hf Hx]; try (exact (D i _ Hi E)).
  injection E as <- _. split; discriminate.
Qed.

Lemma special_not_sign s : special s -> forall c r, s = c :: r -> c <> "+"%char /\ c <> "-"%char.
Proof.
  intros H c r E. subst s. unfold special in H. cbn [map] in H.
  assert (G : forall d w, (d = "i"%char \/ d = "n"%char) -> lower c :: map lower r = d :: w -> c <> "+"%char /\ c <> "-"%char).
  { intros d w Hd Ed. injection Ed as Ed _. split; intros ->; destruct Hd; subst d; discriminate. }
  destruct H as [H|[H|[H|[]]]]; symmetry in H.
  - eapply G; [|exact H]. auto.
  - eapply G; [|exact H]. auto.
  - eapply G; [|exact H]. auto.
Qed.

Lemma py_float_spec s : (exists v, py_float s = Ok v) <-> float_literal s.
Proof.
  unfold py_float. split.
  - intros H. destruct (us_ok false (strip s)) eqn:Eu; [|destruct H as [v H]; discriminate].
    cbn [negb] in H. apply us_ok_well in Eu.
    destruct (take_sign_spec (remove_char "_" (strip s))) as [sg Hsg].
    destruct (take_sign (remove_char "_" (strip s))) as [n d]. destruct Hsg as [Ed [Hs _]].
    exists (strip s), sg, d. split; [apply strip_trimmed|]. split; [exact Eu|]. split; [exact Ed|].
    split; [exact Hs|].
    destruct (str_eqb (map lower d) (lit "inf") || str_eqb (map lower d) (lit "infinity")) eqn:E1.
    { left. unfold special. apply orb_true_iff in E1. destruct E1 as [E1|E1]; apply str_eqb_eq in E1; rewrite E1; simpl; auto. }
    destruct (str_eqb (map lower d) (lit "nan")) eqn:E2.
    { left. unfold special. apply str_eqb_eq in E2. rewrite E2; simpl; auto. }
    right. apply (parse_dec_spec n). exact H.
  - intros [t [sg [u [Ht [Hw [Eu [Hs Hu]]]]]]]. apply trimmed_strip in Ht. rewrite Ht.
    apply us_ok_well in Hw. rewrite Hw. cbn [negb].
    change (remove_char "_" t) with (without_underscores t). rewrite Eu.
    destruct (take_sign_app sg u Hs) as [n En].
    { destruct Hu as [Hu|Hu]; [apply special_not_sign|apply number_not_sign]; exact Hu. }
    rewrite En.
    destruct (str_eqb (map lower u) (lit "inf") || str_eqb (map lower u) (lit "infinity")) eqn:E1; [eexists; reflexivity|].
    destruct (str_eqb (map lower u) (lit "nan")) eqn:E2; [eexists; reflexivity|].
    destruct Hu as [Hu|Hu].
    + exfalso. apply orb_false_iff in E1. destruct E1 as [E1 E3].
      rewrite str_eqb_neq in E1, E2, E3. destruct Hu as [Hu|[Hu|[Hu|[]]]]; congruence.
    + apply parse_dec_spec. exact Hu.
Qed.
