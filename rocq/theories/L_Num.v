(** Lemmas: values of numbers in texts. *)
From Coq Require Import ZArith QArith Ascii String Bool Lia List.
From Verif Require Import M_Py M_Str M_Table S_Str S_Table L_Str L_Nmea.
Import ListNotations.
Open Scope Z_scope.
Local Notation len := List.length.

Lemma digit_value_digit c n : digit_value c n -> is_digit c = true /\ digit_val c = n.
Proof.
  intros [k c' H]. do 10 (destruct k as [|k]; [injection H as <-; split; reflexivity|]). destruct k; discriminate.
Qed.
Lemma digit_digit_value c : is_digit c = true -> digit_value c (digit_val c).
Proof.
  intros H. apply is_digit_spec in H. destruct (In_nth_error _ _ H) as [k E].
  pose proof (dv k c E) as D. destruct (digit_value_digit _ _ D) as [_ ->]. exact D.
Qed.
Lemma whole_digits s n : whole s n -> Forall (fun c => is_digit c = true) s /\ digits_val s = n.
Proof.
  induction 1 as [|c s a n Hc _ [IH1 IH2]]; [split; [constructor|reflexivity]|].
  destruct (digit_value_digit _ _ Hc) as [D <-]. split; [constructor; assumption|]. rewrite digits_val_cons, IH2. reflexivity.
Qed.
Lemma digits_whole s : Forall (fun c => is_digit c = true) s -> whole s (digits_val s).
Proof.
  induction 1 as [|c s Hc H IH]; [constructor|]. rewrite digits_val_cons. constructor; [apply digit_digit_value; exact Hc|exact IH].
Qed.
Lemma take_sign_value s : exists sg sv, s = sg ++ snd (take_sign s) /\ sign_value sg sv /\ forall n, signed (fst (take_sign s)) n = sv * n.
Proof.
  destruct s as [|c s]; cbn [take_sign].
  - exists [], 1. split; [reflexivity|]. split; [constructor|]. intros n. cbn [fst signed]. lia.
  - destruct (Ascii.eqb_spec c "+") as [->|_].
    + exists (lit "+"), 1. split; [reflexivity|]. split; [constructor|]. intros n. cbn [fst signed]. lia.
    + destruct (Ascii.eqb_spec c "-") as [->|_].
      * exists (lit "-"), (-1). split; [reflexivity|]. split; [constructor|]. intros n. cbn [fst signed]. lia.
      * exists [], 1. split; [reflexivity|]. split; [constructor|]. intros n. cbn [fst signed]. lia.
Qed.
Lemma take_sign_signed sg sv d : sign_value sg sv -> (forall c r, d = c :: r -> c <> "+"%char /\ c <> "-"%char) ->
  exists neg, take_sign (sg ++ d) = (neg, d) /\ forall n, signed neg n = sv * n.
Proof.
  intros H Hd. destruct H.
  - exists false. split; [|intros n; cbn [signed]; lia]. destruct d as [|c d]; [reflexivity|]. cbn [app take_sign].
    destruct (Hd c d eq_refl) as [H1 H2].
    destruct (Ascii.eqb_spec c "+"); [contradiction|]. destruct (Ascii.eqb_spec c "-"); [contradiction|]. reflexivity.
  - exists false. split; [reflexivity|intros n; cbn [signed]; lia].
  - exists true. split; [reflexivity|intros n; cbn [signed]; lia].
Qed.
Lemma whole_not_sign d n : whole d n -> forall c r, d = c :: r -> c <> "+"%char /\ c <> "-"%char.
Proof. intros H c r ->. apply whole_digits in H. destruct H as [H _]. inversion H; subst. apply digit_not_sign. assumption. Qed.

Lemma py_int_value s z : py_int s = Ok z <-> int_value s z.
Proof.
  unfold py_int. split.
  - intros H. destruct (us_ok false (strip s)) eqn:Eu; [|discriminate]. cbn [negb] in H. apply us_ok_well in Eu.
    destruct (take_sign_value (remove_char "_" (strip s))) as [sg [sv [E [Hs Hv]]]].
    destruct (take_sign (remove_char "_" (strip s))) as [neg d]. cbn [fst snd] in *.
    destruct d as [|c d]; [discriminate|]. destruct (forallb is_digit (c :: d)) eqn:Ed; [|discriminate].
    apply forallb_Forall in Ed. exists (strip s), sg, (c :: d), sv, (digits_val (c :: d)).
    split; [apply strip_trimmed|]. split; [exact Eu|]. split; [exact E|]. split; [exact Hs|]. split; [discriminate|].
    split; [apply digits_whole; exact Ed|]. rewrite <- Hv. congruence.
  - intros [t [sg [d [sv [n [Ht [Hw [E [Hs [Hn [Hd ->]]]]]]]]]]]. apply trimmed_strip in Ht. rewrite Ht.
    apply us_ok_well in Hw. rewrite Hw. cbn [negb]. change (remove_char "_" t) with (without_underscores t). rewrite E.
    destruct (take_sign_signed sg sv d Hs (whole_not_sign _ _ Hd)) as [neg [-> Hv]].
    apply whole_digits in Hd. destruct Hd as [Hd <-]. destruct d as [|c d]; [congruence|].
    rewrite (proj2 (forallb_Forall _ _) Hd). rewrite Hv. reflexivity.
Qed.

(** the exponent part *)
Lemma exponent_digits x e : exponent_value x e -> forall c r, x = c :: r -> is_digit c = false /\ c <> "."%char.
Proof. intros H c r E. destruct H as [|ec sg d sv n [-> | ->] _ _ _]; [discriminate| |]; injection E as <- _; split; (reflexivity || discriminate). Qed.

Definition exp_tail (r : str) : res Z :=
  match r with
  | [] => Ok 0
  | c :: r' =>
      if Ascii.eqb c "e" || Ascii.eqb c "E" then
        let '(eneg, d) := take_sign r' in
        match d with [] => Raise ValueError | _ => if forallb is_digit d then Ok (signed eneg (digits_val d)) else Raise ValueError end
      else Raise ValueError
  end.
Lemma exp_tail_value r e : exp_tail r = Ok e <-> exponent_value r e.
Proof.
  destruct r as [|c r]; cbn [exp_tail].
  - split; [intros E; injection E as <-; constructor|]. intros H. inversion H. reflexivity.
  - split.
    + destruct (Ascii.eqb c "e" || Ascii.eqb c "E") eqn:E; [|discriminate].
      destruct (take_sign_value r) as [sg [sv [Er [Hs Hv]]]]. destruct (take_sign r) as [neg d]. cbn [fst snd] in *.
      destruct d as [|x d]; [discriminate|]. destruct (forallb is_digit (x :: d)) eqn:Ed; [|discriminate].
      intros H. apply forallb_Forall in Ed. rewrite Er. replace e with (sv * digits_val (x :: d)) by (rewrite <- Hv; congruence).
      constructor; [|exact Hs|discriminate|apply digits_whole; exact Ed].
      apply orb_true_iff in E. destruct E as [E|E]; apply Ascii.eqb_eq in E; auto.
    + intros H. inversion H as [|ec sg d sv n He Hs Hn Hd E1 E2]. subst.
      replace (Ascii.eqb c "e" || Ascii.eqb c "E") with true
        by (symmetry; apply orb_true_iff; destruct He as [->| ->]; [left|right]; reflexivity).
      destruct (take_sign_signed sg sv d Hs (whole_not_sign _ _ Hd)) as [neg [-> Hv]].
      apply whole_digits in Hd. destruct Hd as [Hd <-]. destruct d as [|x d]; [congruence|].
      rewrite (proj2 (forallb_Forall _ _) Hd). rewrite Hv. reflexivity.
Qed.

Lemma parse_dec_tail neg s : parse_dec neg s =
  let '(i, r) := span is_digit s in
  let '(f, r) := match r with c :: r' => if Ascii.eqb c "." then span is_digit r' else ([], r) | [] => ([], []) end in
  match i ++ f with
  | [] => Raise ValueError
  | _ => do e <- exp_tail r; Ok (FDec (signed neg (digits_val (i ++ f))) (e - Z.of_nat (len f)))
  end.
Proof.
  unfold parse_dec. destruct (span is_digit s) as [i r].
  destruct (match r with c :: r' => if Ascii.eqb c "." then span is_digit r' else ([], r) | [] => ([], []) end) as [f r2].
  destruct (i ++ f) as [|y w]; [reflexivity|]. destruct r2 as [|c r2].
  - cbn [exp_tail bind]. f_equal.
  - unfold exp_tail. destruct (Ascii.eqb c "e" || Ascii.eqb c "E"); [|reflexivity].
    destruct (take_sign r2) as [eneg d]. destruct d as [|x d]; [reflexivity|]. destruct (forallb is_digit (x :: d)); [|reflexivity].
    cbn [bind]. f_equal. f_equal. lia.
Qed.

Lemma parse_dec_value neg s v : parse_dec neg s = Ok v <->
  exists i f m x n e, s = m ++ x /\ i ++ f <> [] /\ mantissa i f m /\ whole (i ++ f) n /\ exponent_value x e /\
    v = FDec (signed neg n) (e - Z.of_nat (len f)).
Proof.
  rewrite parse_dec_tail. split.
  - intros H. pose proof (span_spec is_digit s) as Hs. destruct (span is_digit s) as [i r]. destruct Hs as [-> [Hi Hr]].
    destruct r as [|c r].
    + rewrite app_nil_r in H. destruct i as [|y w]; [discriminate|]. cbn [exp_tail bind] in H.
      exists (y :: w), [], (y :: w), [], (digits_val (y :: w)), 0. rewrite !app_nil_r.
      split; [reflexivity|]. split; [discriminate|]. split; [constructor; reflexivity|]. split; [apply digits_whole; exact Hi|].
      split; [constructor|]. injection H as <-. reflexivity.
    + destruct (Ascii.eqb_spec c ".") as [->|Hne].
      * pose proof (span_spec is_digit r) as Hs. destruct (span is_digit r) as [f r2]. destruct Hs as [-> [Hf Hr2]].
        destruct (i ++ f) as [|y w] eqn:Eif; [discriminate|]. destruct (exp_tail r2) as [e|] eqn:Ee; [|discriminate].
        cbn [bind] in H. exists i, f, (i ++ "."%char :: f), r2, (digits_val (y :: w)), e. rewrite Eif.
        split; [rewrite <- app_assoc; reflexivity|]. split; [discriminate|]. split; [constructor|].
        split; [apply digits_whole; rewrite <- Eif; apply Forall_app; split; assumption|].
        split; [apply exp_tail_value; exact Ee|]. congruence.
      * rewrite app_nil_r in H. destruct i as [|y w] eqn:Ei; [discriminate|]. rewrite <- Ei in *.
        destruct (exp_tail (c :: r)) as [e|] eqn:Ee; [|discriminate]. cbn [bind] in H.
        exists i, [], i, (c :: r), (digits_val i), e. rewrite !app_nil_r.
        split; [reflexivity|]. split; [rewrite Ei; discriminate|]. split; [constructor; reflexivity|]. split; [apply digits_whole; exact Hi|].
        split; [apply exp_tail_value; exact Ee|]. congruence.
  - intros [i [f [m [x [n [e [-> [Hn [Hm [Hw [Hx ->]]]]]]]]]]]. pose proof (exponent_digits x e Hx) as Hxd.
    destruct (whole_digits _ _ Hw) as [Hd Ed]. apply Forall_app in Hd. destruct Hd as [Hdi Hdf]. apply exp_tail_value in Hx.
    destruct Hm as [->|].
    + rewrite span_app; [|exact Hdi|intros c r E; apply (Hxd c r E)].
      destruct x as [|c x].
      * destruct (i ++ []) as [|y w]; [congruence|]. rewrite Hx. cbn [bind]. rewrite Ed. reflexivity.
      * destruct (Ascii.eqb_spec c ".") as [->|_]; [destruct (Hxd _ _ eq_refl); congruence|].
        destruct (i ++ []) as [|y w]; [congruence|]. rewrite Hx. cbn [bind]. rewrite Ed. reflexivity.
    + rewrite <- app_assoc. rewrite span_app; [|exact Hdi|intros c r E; injection E as <- _; reflexivity].
      cbn [app]. rewrite ascii_eqb_refl. rewrite span_app; [|exact Hdf|intros c r E; apply (Hxd c r E)].
      destruct (i ++ f) as [|y w]; [congruence|]. rewrite Hx. cbn [bind]. rewrite Ed. reflexivity.
Qed.

Lemma mantissa_head i f m n x : i ++ f <> [] -> mantissa i f m -> whole (i ++ f) n -> forall c r, m ++ x = c :: r -> is_digit c = true \/ c = "."%char.
Proof.
  intros Hn Hm Hw c r E. apply whole_digits in Hw. destruct Hw as [Hw _].
  destruct Hm as [->|].
  - rewrite app_nil_r in *. destruct i as [|y i]; [congruence|]. injection E as <- _. inversion Hw; subst. left. assumption.
  - destruct i as [|y i]; [injection E as <- _; right; reflexivity|]. injection E as <- _. inversion Hw; subst. left. assumption.
Qed.

Lemma without_underscore t : ~ In "_"%char t -> us_ok false t = true /\ remove_char "_" t = t.
Proof.
  intros H. assert (F : Forall (fun c => Ascii.eqb c "_" = false) t).
  { apply Forall_forall. intros c Hc. destruct (Ascii.eqb_spec c "_") as [->|]; [contradiction|reflexivity]. }
  split; [apply us_ok_no_us; exact F|apply remove_char_none; exact F].
Qed.

Lemma in_set_In s c : in_set s c = true <-> In c s.
Proof.
  unfold in_set. rewrite existsb_exists. split.
  - intros [x [Hx E]]. apply Ascii.eqb_eq in E. subst. exact Hx.
  - intros H. exists c. split; [exact H|apply ascii_eqb_refl].
Qed.
Lemma in_set_false s c : in_set s c = false <-> ~ In c s.
Proof. rewrite <- in_set_In. destruct (in_set s c); split; intros H; try congruence; try (exfalso; apply H; reflexivity). Qed.

Lemma strip_In s c : In c (strip s) -> In c s.
Proof. destruct (strip_trimmed s) as [a [b [E _]]]. intros H. rewrite E. apply in_or_app. right. apply in_or_app. left. exact H. Qed.

Lemma special_head d : (str_eqb (map lower d) (lit "inf") || str_eqb (map lower d) (lit "infinity") = true \/ str_eqb (map lower d) (lit "nan") = true) ->
  exists c r, d = c :: r /\ is_digit c = false /\ c <> "."%char.
Proof.
  intros H. destruct d as [|c d]; [destruct H; discriminate|]. exists c, d. split; [reflexivity|].
  assert (G : lower c = "i"%char \/ lower c = "n"%char).
  { rewrite orb_true_iff, !str_eqb_eq in H. cbn [map] in H. destruct H as [[H|H]|H]; injection H as H _; auto. }
  assert (K : forall x, is_digit x || Ascii.eqb x "." = true -> Ascii.eqb (lower x) "i" || Ascii.eqb (lower x) "n" = false).
  { intros x Hx. assert (A : implb (is_digit x || Ascii.eqb x ".") (negb (Ascii.eqb (lower x) "i" || Ascii.eqb (lower x) "n")) = true).
    { clear Hx. revert x. apply ascii_forallb. vm_compute. reflexivity. }
    rewrite Hx in A. cbn [implb] in A. apply negb_true_iff in A. exact A. }
  assert (L : Ascii.eqb (lower c) "i" || Ascii.eqb (lower c) "n" = true) by (destruct G as [->| ->]; reflexivity).
  split.
  - destruct (is_digit c) eqn:E; [|reflexivity]. rewrite K in L; [discriminate|]. rewrite E. reflexivity.
  - intros ->. discriminate.
Qed.

Lemma numeral_value s q : number_value s q <-> exists q', numeral s = Some q' /\ (q' == q)%Q.
Proof.
  unfold number_value, numeral, py_float. split.
  - intros [t [sg [i [f [m [x [sv [n [e [Ht [E [Hs [Hn [Hm [Hw [Hx Hq]]]]]]]]]]]]]]]].
    assert (Hun : ~ In "_"%char t).
    { pose proof (whole_digits _ _ Hw) as [Hd _].
      assert (D : forall l, Forall (fun c => is_digit c = true) l -> ~ In "_"%char l).
      { intros l Hl Hi. rewrite Forall_forall in Hl. specialize (Hl _ Hi). discriminate. }
      assert (Hsg : forall sg sv, sign_value sg sv -> ~ In "_"%char sg).
      { intros sg' sv' H Hi. destruct H; cbn in Hi; intuition discriminate. }
      rewrite E. rewrite !in_app_iff. apply Forall_app in Hd. destruct Hd as [Hdi Hdf]. intros [H|[H|H]].
      - exact (Hsg _ _ Hs H).
      - destruct Hm; [exact (D _ Hdi H)|]. apply in_app_iff in H. destruct H as [H|[H|H]]; [exact (D _ Hdi H)|discriminate|exact (D _ Hdf H)].
      - destruct Hx as [|ec sg' d sv' n' He Hs' _ Hd']; [destruct H|]. destruct H as [H|H]; [destruct He; congruence|].
        apply in_app_iff in H. destruct H as [H|H]; [exact (Hsg _ _ Hs' H)|]. apply whole_digits in Hd'. exact (D _ (proj1 Hd') H). }
    assert (Hus : in_set s "_" = false).
    { apply in_set_false. destruct Ht as [a [b [Es [Ha [Hb _]]]]]. rewrite Es, !in_app_iff. intros [H|[H|H]].
      - rewrite Forall_forall in Ha. specialize (Ha _ H). apply is_space_spec in Ha. discriminate.
      - contradiction.
      - rewrite Forall_forall in Hb. specialize (Hb _ H). apply is_space_spec in Hb. discriminate. }
    rewrite Hus. apply trimmed_strip in Ht. rewrite Ht. destruct (without_underscore t Hun) as [-> ->]. cbn [negb]. rewrite E.
    pose proof (mantissa_head i f m n x Hn Hm Hw) as Hhead.
    destruct (take_sign_signed sg sv (m ++ x) Hs) as [neg [-> Hv]].
    { intros c r Ec. destruct (Hhead c r Ec) as [H| ->]; [apply digit_not_sign; exact H|split; discriminate]. }
    assert (Hsp : (str_eqb (map lower (m ++ x)) (lit "inf") || str_eqb (map lower (m ++ x)) (lit "infinity")) = false /\ str_eqb (map lower (m ++ x)) (lit "nan") = false).
    { pose proof (special_head (m ++ x)) as K.
      destruct (str_eqb (map lower (m ++ x)) (lit "inf") || str_eqb (map lower (m ++ x)) (lit "infinity")).
      - destruct (K (or_introl eq_refl)) as [c [r [E1 [E2 E3]]]]. destruct (Hhead c r E1); congruence.
      - destruct (str_eqb (map lower (m ++ x)) (lit "nan")); [|split; reflexivity].
        destruct (K (or_intror eq_refl)) as [c [r [E1 [E2 E3]]]]. destruct (Hhead c r E1); congruence. }
    destruct Hsp as [-> ->].
    assert (Hp : parse_dec neg (m ++ x) = Ok (FDec (signed neg n) (e - Z.of_nat (len f)))).
    { apply parse_dec_value. exists i, f, m, x, n, e. repeat split; try assumption. }
    rewrite Hp. eexists. split; [reflexivity|]. unfold dec_Q. rewrite Hv, Hq. reflexivity.
  - intros [q' [H Eq]]. destruct (in_set s "_") eqn:Hus; [discriminate|]. apply in_set_false in Hus.
    destruct (without_underscore (strip s)) as [E1 E2]; [intros K; apply Hus; apply strip_In; exact K|].
    rewrite E1, E2 in H. cbn [negb] in H.
    destruct (take_sign_value (strip s)) as [sg [sv [E [Hs Hv]]]]. destruct (take_sign (strip s)) as [neg d]. cbn [fst snd] in *.
    destruct (str_eqb (map lower d) (lit "inf") || str_eqb (map lower d) (lit "infinity")); [discriminate|].
    destruct (str_eqb (map lower d) (lit "nan")); [discriminate|].
    destruct (parse_dec neg d) as [v|] eqn:Ep; [|discriminate]. apply parse_dec_value in Ep.
    destruct Ep as [i [f [m [x [n [e [-> [Hn [Hm [Hw [Hx ->]]]]]]]]]]].
    exists (strip s), sg, i, f, m, x, sv, n, e. split; [apply strip_trimmed|]. split; [exact E|]. split; [exact Hs|]. split; [exact Hn|].
    split; [exact Hm|]. split; [exact Hw|]. split; [exact Hx|]. rewrite <- Eq.
    apply (f_equal (fun o => match o with Some z => z | None => q' end)) in H. cbn beta iota in H. rewrite <- H. unfold dec_Q. rewrite Hv. reflexivity.
Qed.

Lemma numeral_some s q : numeral s = Some q -> number_value s q.
Proof. intros H. apply numeral_value. exists q. split; [exact H|reflexivity]. Qed.
Lemma numeral_none s : numeral s = None <-> ~ a_number s.
Proof.
  split.
  - intros H [q Hq]. apply numeral_value in Hq. destruct Hq as [q' [E _]]. congruence.
  - intros H. destruct (numeral s) as [q|] eqn:E; [|reflexivity]. exfalso. apply H. exists q. apply numeral_some. exact E.
Qed.
Lemma numeral_is_some s : is_some (numeral s) = true <-> a_number s.
Proof.
  destruct (numeral s) as [q|] eqn:E; cbn [is_some]; split; intros H; try reflexivity; try discriminate.
  - exists q. apply numeral_some. exact E.
  - apply numeral_none in E. contradiction.
Qed.
