(** Lemmas for property C59. *)
From Coq Require Import ZArith Reals Ascii String Bool Lia List.
From Verif Require Import M_Py L_Base M_Str S_Str L_Str M_Cal S_Cal L_Cal M_Nmea S_Nmea L_Nmea L_Nav2.
Import ListNotations.
Open Scope Z_scope.
Local Notation len := List.length.

Definition inds_at (talker : str) (allnav : list str) (off n : nat) : list nat :=
  filter (fun i => containsb talker (nth i allnav [])) (seq off n).

Lemma inds_none talker pre l post : Forall (fun x => ~ occurs talker x) l -> inds_at talker (pre ++ l ++ post) (len pre) (len l) = [].
Proof.
  revert pre. induction l as [|a l IH]; intros pre H; [reflexivity|].
  inversion H as [|x y H1 H2]; subst x y. unfold inds_at in *. cbn [List.length seq filter].
  rewrite app_nth2, Nat.sub_diag by lia. cbn [app nth]. rewrite (proj2 (containsb_false _ _) H1).
  specialize (IH (pre ++ [a]) H2). rewrite app_length in IH. cbn [List.length] in IH. rewrite Nat.add_1_r in IH.
  rewrite <- app_assoc in IH. exact IH.
Qed.

Lemma slice_mid (A : Type) (pre l post : list A) : slice (pre ++ l ++ post) (len pre) (len pre + len l) = l.
Proof.
  unfold slice. replace (len pre + len l - len pre)%nat with (len l) by lia.
  rewrite skipn_app, Nat.sub_diag, skipn_all2 by lia. cbn [skipn app].
  rewrite firstn_app, Nat.sub_diag, firstn_all. cbn [firstn]. apply app_nil_r.
Qed.

Lemma revelle_blocks talker blocks tail : revelle_layout talker blocks tail -> forall allnav pre cs, len cs = len blocks ->
  allnav = pre ++ revelle_text blocks tail ->
  let inds := inds_at talker allnav (len pre) (len (revelle_text blocks tail)) in
  mapM (fun x => let '((lo, i), c) := x in revelle_back (rev (slice allnav lo i)) c) (combine (combine (len pre :: map S inds) inds) cs) =
  mapM (fun bc => revelle_back (rev (fst (fst bc))) (snd bc)) (combine blocks cs).
Proof.
  intros [Hb Ht]. induction blocks as [|[b ln] blocks IH]; intros allnav pre cs Hc E.
  - destruct cs; [|discriminate]. cbv zeta. cbn [combine mapM].
    match goal with |- context [combine ?x []] => destruct x; reflexivity end.
  - destruct cs as [|c cs]; [discriminate|]. injection Hc as Hc.
    inversion Hb as [|x y [Hb1 Hb2] Hb3]; subst x y. cbn [fst snd] in Hb1, Hb2. cbv zeta.
    assert (Et : revelle_text ((b, ln) :: blocks) tail = b ++ ln :: revelle_text blocks tail).
    { unfold revelle_text. cbn [map concat fst snd]. rewrite <- !app_assoc. reflexivity. }
    rewrite Et in *.
    assert (Ei : inds_at talker allnav (len pre) (len (b ++ ln :: revelle_text blocks tail)) =
      (len pre + len b)%nat :: inds_at talker allnav (S (len pre + len b)) (len (revelle_text blocks tail))).
    { unfold inds_at. rewrite app_length, seq_app, filter_app. cbn [List.length].
      pose proof (inds_none talker pre b (ln :: revelle_text blocks tail) Hb1) as H0. unfold inds_at in H0. rewrite <- E in H0. rewrite H0.
      cbn [app seq filter]. replace (nth (len pre + len b) allnav []) with ln.
      - rewrite (proj2 (containsb_spec _ _) Hb2). reflexivity.
      - rewrite E. rewrite app_nth2 by lia. rewrite app_nth2 by lia.
        replace (len pre + len b - len pre - len b)%nat with 0%nat by lia. reflexivity. }
    rewrite Ei. set (X := inds_at talker allnav (S (len pre + len b)) (len (revelle_text blocks tail))).
    change (combine (combine (len pre :: map S ((len pre + len b)%nat :: X)) ((len pre + len b)%nat :: X)) (c :: cs))
      with ((len pre, (len pre + len b)%nat, c) :: combine (combine (S (len pre + len b) :: map S X) X) cs).
    change (combine ((b, ln) :: blocks) (c :: cs)) with ((b, ln, c) :: combine blocks cs).
    cbn [mapM fst snd].
    replace (slice allnav (len pre) (len pre + len b)) with b by (rewrite E; symmetry; apply slice_mid).
    destruct (revelle_back (rev b) c) as [r|e]; [|reflexivity]. cbn [bind].
    specialize (IH Hb3 allnav (pre ++ b ++ [ln]) cs Hc). rewrite !app_length in IH. cbn [List.length] in IH.
    replace (len pre + (len b + 1))%nat with (S (len pre + len b)) in IH by lia. cbv zeta in IH. fold X in IH. rewrite IH; [reflexivity|].
    rewrite E, <- !app_assoc. reflexivity.
Qed.

Lemma revelle_selected talker blocks tail : revelle_layout talker blocks tail ->
  selected (occurs talker) (revelle_text blocks tail) (map snd blocks).
Proof.
  intros [Hb Ht]. unfold revelle_text. induction Hb as [|[b ln] blocks [H1 H2] _ IH]; cbn [map concat app fst snd].
  - apply selected_nil. exact Ht.
  - rewrite <- !app_assoc. cbn [fst] in H1. induction H1 as [|l b Hl _ IHb]; cbn [app].
    + apply sel_yes; [exact H2|exact IH].
    + apply sel_no; [exact Hl|exact (IHb H2)].
Qed.

(** digit strings are padded numbers *)
Lemma digit_char_of c : is_digit c = true -> digit_char (digit_val c) = c.
Proof.
  intros H. assert (E : implb (is_digit c) (Ascii.eqb (digit_char (digit_val c)) c) = true).
  { clear H. revert c. apply ascii_forallb. vm_compute. reflexivity. }
  rewrite H in E. apply Ascii.eqb_eq in E. exact E.
Qed.

Lemma pad_of_digits s : Forall (fun c => is_digit c = true) s -> pad (len s) (digits_val s) = s.
Proof.
  induction s as [|c s IH] using rev_ind; intros H; [reflexivity|].
  apply Forall_app in H. destruct H as [H1 H2]. inversion H2 as [|x y Hc _]; subst x y.
  rewrite app_length. cbn [List.length]. rewrite Nat.add_1_r. cbn [pad]. rewrite digits_val_app. cbn [List.length].
  change (10 ^ Z.of_nat 1) with 10. pose proof (digit_val_bound c Hc) as Hb.
  replace (digits_val [c]) with (digit_val c) by (unfold digits_val; cbn [fold_left]; lia).
  f_equal.
  - replace ((digits_val s * 10 + digit_val c) / 10) with (digits_val s) by (Z.div_mod_to_equations; lia). apply IH. exact H1.
  - f_equal. rewrite <- (digit_char_of c Hc) at 2. unfold digit_char. do 3 f_equal. Z.div_mod_to_equations. lia.
Qed.

Lemma pmatch_dig_inv n p s g r : pmatch ([PDig n] ++ p) s = Some (g, r) ->
  exists z s' g', 0 <= z < 10 ^ Z.of_nat n /\ s = pad n z ++ s' /\ g = pad n z :: g' /\ pmatch p s' = Some (g', r).
Proof.
  cbn [app pmatch]. destruct (_ && _) eqn:E; [|discriminate]. apply andb_true_iff in E. destruct E as [E1 E2].
  apply Nat.eqb_eq in E1. apply forallb_Forall in E2.
  destruct (pmatch p (skipn n s)) as [[g' r']|] eqn:E3; [|discriminate]. intros H. injection H as <- <-.
  exists (digits_val (firstn n s)), (skipn n s), g'. pose proof (pad_of_digits _ E2) as Ep. rewrite E1 in Ep.
  split; [rewrite <- E1 at 3; apply digits_val_bound; exact E2|]. rewrite Ep. split; [symmetry; apply firstn_skipn|]. split; [reflexivity|exact E3].
Qed.

Lemma pmatch_lit_inv2 x p s r : pmatch (plit x ++ p) s = Some r -> exists t, s = lit x ++ t /\ pmatch p t = Some r.
Proof.
  intros H. destruct (pmatch_lit_inv _ _ _ _ H) as [t ->]. exists t. split; [reflexivity|]. rewrite pmatch_lit in H. exact H.
Qed.

Lemma Revelle_undated l : undated l -> pmatch pat_Revelle l = None.
Proof.
  intros H. destruct (pmatch pat_Revelle l) as [[g r]|] eqn:E; [|reflexivity]. exfalso. unfold pat_Revelle in E.
  apply pmatch_dig_inv in E. destruct E as [y [s1 [g1 [By [-> [_ E]]]]]].
  apply pmatch_lit_inv2 in E. destruct E as [s2 [-> E]].
  apply pmatch_dig_inv in E. destruct E as [m [s3 [g2 [Bm [-> [_ E]]]]]].
  apply pmatch_lit_inv2 in E. destruct E as [s4 [-> E]].
  rewrite <- (app_nil_r [PDig 2]) in E. apply pmatch_dig_inv in E. destruct E as [d [s5 [g3 [Bd [-> _]]]]].
  apply (H y m d). exists s5. split; [reflexivity|]. change (10 ^ Z.of_nat 4) with 10000 in By. change (10 ^ Z.of_nat 2) with 100 in *. lia.
Qed.

Lemma Revelle_dated l y m d : dated_line l y m d ->
  exists r, pmatch pat_Revelle l = Some ([pad 4 y; pad 2 m; pad 2 d], r).
Proof.
  intros [b [-> _]]. exists b. unfold pat_Revelle. rewrite pmatch_dig, pmatch_lit, pmatch_dig, pmatch_lit.
  rewrite <- (app_nil_r [PDig 2]), pmatch_dig. reflexivity.
Qed.

Lemma back_undated l c : Forall undated l -> forall b, revelle_back (l ++ b) c = revelle_back b c.
Proof. induction 1 as [|x l H _ IH]; intros b; [reflexivity|]. cbn [app revelle_back]. rewrite (Revelle_undated x H). apply IH. Qed.

Lemma back_dated block y m d h mi s us i : last_dated block (y, m, d) -> 1 <= y <= 9999 -> valid_date (y, m, d) ->
  0 <= h < 24 -> 0 <= mi < 60 -> 0 <= s < 60 -> 0 <= us < 1000000 -> instant (y, m, d) h mi s us i ->
  revelle_back (rev block) (h, mi, s, us) = Ok (Some i).
Proof.
  intros [b1 [l [b2 [-> [Hl Hb]]]]] Hy Hd Hh Hm Hs Hu Hi. rewrite rev_app_distr. cbn [rev]. rewrite <- app_assoc.
  rewrite back_undated by (apply Forall_rev; exact Hb). cbn [app revelle_back].
  destruct (Revelle_dated _ _ _ _ Hl) as [r ->]. cbn [fst ints map]. unfold zth. cbn [nth].
  destruct (valid_bounds _ _ _ Hd) as [B1 B2]. rewrite !pad_val_small by (assumption || apply pad4_bound; exact Hy).
  rewrite (dt_us_instant _ _ _ _ _ _ _ i); try assumption. reflexivity.
Qed.

Lemma back_none block c : Forall undated block -> revelle_back (rev block) c = Ok None.
Proof. intros H. rewrite <- (app_nil_r (rev block)), back_undated by (apply Forall_rev; exact H). reflexivity. Qed.

Lemma Revelle_times talker blocks tail rs : usable talker -> revelle_layout talker blocks tail ->
  Forall2 (block_read talker) blocks rs -> navdate_Revelle (revelle_text blocks tail) talker = Ok rs.
Proof.
  intros Hu Hl H. unfold navdate_Revelle, clock_time. rewrite (talker_lines_selected _ _ _ (revelle_selected _ _ _ Hl)).
  assert (G : exists cs, len cs = len blocks /\ mapM (clock_line talker) (map snd blocks) = Ok cs /\
    mapM (fun bc => revelle_back (rev (fst (fst bc))) (snd bc)) (combine blocks cs) = Ok rs).
  { clear Hl. induction H as [|[b ln] r blocks rs Hb _ [cs [L [IH1 IH2]]]]; [exists []; repeat split; reflexivity|].
    destruct Hb as [pre [fields [h [mi [s [k [f [c [Hsen [Hc [Hh Hr]]]]]]]]]]]. cbn [fst snd] in *.
    exists ((h, mi, s, c * 10000) :: cs). split; [cbn [List.length]; lia|].
    cbn [map mapM combine fst snd]. rewrite (clock_hundredths _ _ _ _ _ _ _ _ _ _ Hu Hsen Hc Hh). cbn [bind]. rewrite IH1.
    split; [reflexivity|]. destruct Hc as [_ [Rh [Rm [Rs _]]]].
    assert (E : revelle_back (rev b) (h, mi, s, c * 10000) = Ok r).
    { destruct Hr as [[y [m [d [i [H1 [H2 [H3 [H4 ->]]]]]]]]|[H1 ->]].
      - apply (back_dated _ y m d); try assumption. exact (hundredths_us _ _ _ Hh).
      - apply back_none. exact H1. }
    rewrite E. cbn [bind]. rewrite IH2. reflexivity. }
  destruct G as [cs [L [G1 G2]]]. rewrite G1. cbn [bind]. cbv zeta.
  pose proof (revelle_blocks talker blocks tail Hl (revelle_text blocks tail) [] cs L eq_refl) as E. cbv zeta in E.
  cbn [List.length] in E. unfold inds_at in E. unfold talker_inds. rewrite E. exact G2.
Qed.
