(** Lemmas for C92: the TOML reader on the lines of [S_Toml]. *)
From Coq Require Import ZArith QArith Ascii String Bool Lia ListDec List.
From Verif Require Import M_Py M_Str S_Str L_Str M_Ini S_Ini L_Ini M_Toml S_Toml.
Import ListNotations.
Open Scope Z_scope.

Lemma is_ctrl_spec c : is_ctrl c = true <-> control c.
Proof.
  unfold is_ctrl, control, nat_of_ascii. set (n := N_of_ascii c).
  rewrite orb_true_iff, andb_true_iff, negb_true_iff, N.ltb_lt, N.eqb_neq, N.eqb_eq. lia.
Qed.
Lemma no_ctrl s : Forall (fun x => ~ control x) s -> existsb is_ctrl s = false.
Proof.
  induction 1 as [|c s H _ IH]; [reflexivity|]. cbn [existsb]. rewrite IH, orb_false_r.
  destruct (is_ctrl c) eqn:E; [|reflexivity]. apply is_ctrl_spec in E. contradiction.
Qed.
Lemma key_char_bare c : key_char c -> is_bare c = true.
Proof.
  unfold key_char. intros H.
  assert (E : forallb is_bare (lit "ABCDEFGHIJKLMNOPQRSTUVWXYZabcdefghijklmnopqrstuvwxyz0123456789_-") = true) by reflexivity.
  rewrite forallb_forall in E. exact (E c H).
Qed.
Lemma bare_not c d : is_bare c = true -> is_bare d = false -> Ascii.eqb c d = false.
Proof. intros H H'. destruct (Ascii.eqb_spec c d); [congruence|reflexivity]. Qed.

Lemma skip_blanks b s : blanks b -> skip_ws (b ++ s) = skip_ws s.
Proof. intros H. unfold skip_ws. apply drop_while_app. eapply Forall_impl; [|exact H]. intros c ->. reflexivity. Qed.
Lemma skip_none s : (forall c r, s = c :: r -> is_ws c = false) -> skip_ws s = s.
Proof. apply drop_while_id. Qed.

Lemma tail_end t : tail t -> end_of_line t = Ok tt.
Proof.
  intros [b [Hb [->|[c [-> Hc]]]]]; unfold end_of_line.
  - rewrite <- (app_nil_r b), skip_blanks by exact Hb. reflexivity.
  - rewrite skip_blanks by exact Hb. cbn. rewrite (no_ctrl c Hc). reflexivity.
Qed.
(** what follows a value starts with neither of the characters that could continue it *)
Definition quiet (t : str) : Prop := forall c r, t = c :: r -> c = " "%char \/ c = "#"%char.
Lemma tail_quiet t : tail t -> quiet t.
Proof.
  intros [b [Hb [->|[c [-> _]]]]] x r E; (destruct b as [|y b]; [|inversion Hb; subst; injection E as <- _; auto]).
  - discriminate.
  - injection E as <- _. auto.
Qed.

Definition stops (r : str) : Prop := forall c t, r = c :: t -> is_digit c = false /\ c <> "_"%char.
Lemma quiet_stops t : quiet t -> stops t.
Proof. intros H c r E. destruct (H c r E) as [->| ->]; split; (reflexivity || discriminate). Qed.
Lemma more_digits_app d r : Forall digit d -> stops r -> more_digits (d ++ r) = (d, r).
Proof.
  intros H Hr. apply Forall_digit in H. induction H as [|c d Hc _ IH]; cbn [app].
  - destruct r as [|c t]; [reflexivity|]. destruct (Hr c t eq_refl) as [H1 H2]. cbn [more_digits]. rewrite H1.
    destruct (Ascii.eqb_spec c "_"); [contradiction|reflexivity].
  - cbn [more_digits]. rewrite Hc, IH. reflexivity.
Qed.

Lemma decimal_val s : decimal s = digits_val s.
Proof.
  induction s as [|c s IH]; [reflexivity|]. rewrite digits_val_cons. cbn [decimal]. rewrite IH. f_equal. f_equal.
  unfold digit_val, nat_of_ascii. rewrite N_nat_Z. reflexivity.
Qed.
Lemma sign_value_opt sg z : sign_value sg z -> sign_opt sg.
Proof. destruct 1; constructor. Qed.
Lemma take_sign_value sg z d : sign_value sg z -> (forall c r, d = c :: r -> c <> "+"%char /\ c <> "-"%char) ->
  exists n, take_sign (sg ++ d) = (n, d) /\ forall x, signed n x = z * x.
Proof.
  intros H Hd. destruct H; cbn [app].
  - exists false. split; [|intros x; cbn [signed]; lia]. destruct d as [|c d]; [reflexivity|]. cbn [take_sign].
    destruct (Hd c d eq_refl) as [H1 H2].
    destruct (Ascii.eqb_spec c "+"); [contradiction|]. destruct (Ascii.eqb_spec c "-"); [contradiction|]. reflexivity.
  - exists false. split; [reflexivity|intros x; cbn [signed]; lia].
  - exists true. split; [reflexivity|intros x; cbn [signed]; lia].
Qed.
Lemma digits_head i : digits i -> exists c r, i = c :: r /\ is_digit c = true /\ Forall digit r.
Proof.
  intros [N F]. destruct i as [|c r]; [congruence|]. exists c, r. split; [reflexivity|].
  inversion F; subst. split; [apply is_digit_spec|]; assumption.
Qed.
Lemma digits_not_sign i r : digits i -> forall c t, i ++ r = c :: t -> c <> "+"%char /\ c <> "-"%char.
Proof.
  intros H c t E. destruct (digits_head i H) as [x [y [-> [Hx _]]]]. injection E as <- _. apply digit_not_sign. exact Hx.
Qed.

(** the three parts of a number *)
Definition int_step (d : str) : option (str * str) :=
  match d with
  | c :: t => if negb (is_digit c) then None else Some (if Ascii.eqb c "0" then ([c], t) else let '(a, b) := more_digits t in (c :: a, b))
  | [] => None
  end.
Definition frac_step (r : str) : str * str :=
  match r with
  | p :: x :: r' => if Ascii.eqb p "." && is_digit x then let '(a, b) := more_digits r' in (x :: a, b) else ([], r)
  | _ => ([], r)
  end.
Definition exp_step (r : str) : option Z * str :=
  match r with
  | p :: r' =>
      if Ascii.eqb p "e" || Ascii.eqb p "E" then
        let '(eneg, x) := take_sign r' in
        match x with
        | y :: x' => if is_digit y then let '(a, b) := more_digits x' in (Some (signed eneg (digits_val (y :: a))), b) else (None, r)
        | [] => (None, r)
        end
      else (None, r)
  | [] => (None, r)
  end.
Definition finish (neg : bool) (i f : str) (e : option Z) (r : str) : tval * str :=
  let m := signed neg (digits_val (i ++ f)) in
  match f, e with
  | [], None => (TInt m, r)
  | _, _ => (TFloat (FDec m (match e with Some z => z | None => 0 end - Z.of_nat (List.length f))), r)
  end.
Lemma toml_number_steps s neg d i r f r1 e r2 : take_sign s = (neg, d) -> int_step d = Some (i, r) ->
  frac_step r = (f, r1) -> exp_step r1 = (e, r2) -> toml_number s = Some (finish neg i f e r2).
Proof.
  intros E1 E2 E3 E4. unfold toml_number. rewrite E1. destruct d as [|c t]; [discriminate|]. cbn [int_step] in E2.
  destruct (negb (is_digit c)); [discriminate|]. injection E2 as E2. rewrite E2.
  cbv beta iota zeta.
  match goal with |- match ?m with _ => _ end = _ => replace m with (f, r1) by (symmetry; exact E3) end. cbv beta iota.
  match goal with |- match ?m with _ => _ end = _ => replace m with (e, r2) by (symmetry; exact E4) end. cbv beta iota.
  unfold finish. destruct f, e; reflexivity.
Qed.
Lemma int_step_app i r : no_leading_zero i -> stops r -> int_step (i ++ r) = Some (i, r).
Proof.
  intros [H H0] Hr. destruct (digits_head i H) as [c [t [-> [Hc Ht]]]]. cbn [app int_step]. rewrite Hc. cbn [negb]. f_equal.
  destruct (Ascii.eqb_spec c "0") as [->|Hn].
  - destruct H0 as [H0|H0]; [|exfalso; exact (H0 t eq_refl)]. change (lit "0") with ["0"%char] in H0. injection H0 as ->. reflexivity.
  - rewrite more_digits_app by assumption. reflexivity.
Qed.
Lemma frac_step_app f r : digits f -> stops r -> frac_step ("."%char :: f ++ r) = (f, r).
Proof.
  intros H Hr. destruct (digits_head f H) as [c [t [-> [Hc Ht]]]]. cbn [app frac_step]. rewrite Hc.
  change (Ascii.eqb "." ".") with true. cbn [andb]. rewrite more_digits_app by assumption. reflexivity.
Qed.
Lemma frac_step_none r : (forall t, r <> "."%char :: t) -> frac_step r = ([], r).
Proof.
  intros H. destruct r as [|p [|x r]]; try reflexivity. cbn [frac_step].
  destruct (Ascii.eqb_spec p "."); [subst; exfalso; exact (H _ eq_refl)|reflexivity].
Qed.
Lemma exp_step_app x e r : exp_value x e -> stops r -> exp_step (x ++ r) = (Some e, r).
Proof.
  intros H Hr. destruct H as [p sg z d Hp Hs Hd]. cbn [app exp_step].
  replace (Ascii.eqb p "e" || Ascii.eqb p "E") with true by (destruct Hp as [->| ->]; reflexivity).
  rewrite <- app_assoc. destruct (take_sign_value sg z (d ++ r) Hs) as [n [E En]]; [apply digits_not_sign; exact Hd|].
  rewrite E. destruct (digits_head d Hd) as [c [t [-> [Hc Ht]]]]. cbn [app]. rewrite Hc, more_digits_app by assumption.
  rewrite En, decimal_val. reflexivity.
Qed.
Lemma exp_step_none r : quiet r -> exp_step r = (None, r).
Proof.
  intros H. destruct r as [|p r]; [reflexivity|]. destruct (H p r eq_refl) as [->| ->]; reflexivity.
Qed.
Lemma exp_stops x e r : exp_value x e -> stops (x ++ r).
Proof. intros H. destruct H as [p sg z d Hp _ _]. intros c t E. injection E as <- _. destruct Hp as [->| ->]; split; (reflexivity || discriminate). Qed.
Lemma exp_no_point x e r : exp_value x e -> forall t, x ++ r <> "."%char :: t.
Proof. intros H t E. destruct H as [p sg z d Hp _ _]. injection E as -> _. destruct Hp; discriminate. Qed.
Lemma point_stops t : stops ("."%char :: t).
Proof. intros c r E. injection E as <- _. split; [reflexivity|discriminate]. Qed.
Lemma quiet_no_point r : quiet r -> forall t, r <> "."%char :: t.
Proof. intros H t E. destruct (H _ _ E); discriminate. Qed.

Lemma toml_number_numeral s v t : numeral s v -> quiet t -> toml_number (s ++ t) = Some (v, t).
Proof.
  intros H Ht. pose proof (quiet_stops t Ht) as St.
  destruct H as [sg z i Hs Hi|sg z i x e Hs Hi Hx|sg z i f Hs Hi Hf|sg z i f x e Hs Hi Hf Hx]; rewrite <- ?app_assoc;
    cbn [app]; rewrite <- ?app_assoc.
  - destruct (take_sign_value sg z (i ++ t) Hs) as [n [E En]]; [apply digits_not_sign; apply Hi|].
    rewrite (toml_number_steps _ _ _ _ _ _ _ _ _ E (int_step_app i t Hi St) (frac_step_none t (quiet_no_point t Ht)) (exp_step_none t Ht)).
    unfold finish. rewrite app_nil_r, En, decimal_val. reflexivity.
  - destruct (take_sign_value sg z (i ++ x ++ t) Hs) as [n [E En]]; [apply digits_not_sign; apply Hi|].
    rewrite (toml_number_steps _ _ _ _ _ _ _ _ _ E (int_step_app i _ Hi (exp_stops x e t Hx)) (frac_step_none _ (exp_no_point x e t Hx))
               (exp_step_app x e t Hx St)).
    unfold finish. rewrite app_nil_r, En, decimal_val. cbn [List.length]. rewrite Z.sub_0_r. reflexivity.
  - destruct (take_sign_value sg z (i ++ "."%char :: f ++ t) Hs) as [n [E En]]; [apply digits_not_sign; apply Hi|].
    rewrite (toml_number_steps _ _ _ _ _ _ _ _ _ E (int_step_app i _ Hi (point_stops _)) (frac_step_app f t Hf St) (exp_step_none t Ht)).
    unfold finish. rewrite En, decimal_val. destruct f as [|c f]; [destruct Hf; congruence|]. reflexivity.
  - destruct (take_sign_value sg z (i ++ "."%char :: f ++ x ++ t) Hs) as [n [E En]]; [apply digits_not_sign; apply Hi|].
    rewrite (toml_number_steps _ _ _ _ _ _ _ _ _ E (int_step_app i _ Hi (point_stops _)) (frac_step_app f _ Hf (exp_stops x e t Hx))
               (exp_step_app x e t Hx St)).
    unfold finish. rewrite En, decimal_val. destruct f as [|c f]; [destruct Hf; congruence|]. reflexivity.
Qed.

(** ** values *)
Definition after_int (r : str) : Prop := forall c t, r = c :: t -> In c [".";"e";"E";" ";"#"]%char.
Lemma quiet_after t : quiet t -> after_int t.
Proof. intros H c r E. destruct (H c r E) as [->| ->]; cbn; tauto. Qed.
Lemma digit_is c d : is_digit c = true -> is_digit d = false -> Ascii.eqb d c = false.
Proof. intros H H'. destruct (Ascii.eqb_spec d c); [congruence|reflexivity]. Qed.
Lemma after_head c : In c [".";"e";"E";" ";"#"]%char ->
  is_digit c = false /\ Ascii.eqb c "-" = false /\ Ascii.eqb c ":" = false /\
  Ascii.eqb "x" c = false /\ Ascii.eqb "o" c = false /\ Ascii.eqb "b" c = false.
Proof. cbn [In]. intros [<-|[<-|[<-|[<-|[<-|[]]]]]]; repeat split. Qed.
Lemma unmodelled_number i r : digits i -> after_int r -> unmodelled_value (i ++ r) = false.
Proof.
  intros [N F] Hr. apply Forall_digit in F. unfold unmodelled_value.
  assert (D : forall c, is_digit c = true -> Ascii.eqb c "-" = false /\ Ascii.eqb c ":" = false /\
            Ascii.eqb "x" c = false /\ Ascii.eqb "o" c = false /\ Ascii.eqb "b" c = false).
  { intros c Hc. repeat split; first [apply digit_neq; [exact Hc|reflexivity]|apply digit_is; [exact Hc|reflexivity]]. }
  assert (P : existsb (fun p => prefixb (lit p) (i ++ r)) ["0x"; "0o"; "0b"]%string = false).
  { cbn [existsb]. change (lit "0x") with ["0";"x"]%char. change (lit "0o") with ["0";"o"]%char. change (lit "0b") with ["0";"b"]%char.
    destruct i as [|a [|b i]]; [congruence| |]; cbn [app prefixb].
    - destruct r as [|h r]; [rewrite !andb_false_r; reflexivity|].
      destruct (after_head h (Hr h r eq_refl)) as [_ [_ [_ [-> [-> ->]]]]]. cbn [andb]. rewrite !andb_false_r. reflexivity.
    - inversion F as [|? ? _ F1]; subst. inversion F1 as [|? ? Hb _]; subst.
      destruct (D b Hb) as [_ [_ [-> [-> ->]]]]. cbn [andb]. rewrite !andb_false_r. reflexivity. }
  rewrite P, orb_false_r. clear P.
  assert (T : forall c t, r = c :: t -> is_digit c = false /\ Ascii.eqb c "-" = false /\ Ascii.eqb c ":" = false).
  { intros c t E. destruct (after_head c (Hr c t E)) as [H1 [H2 [H3 _]]]. auto. }
  clear Hr. destruct i as [|a [|b [|c [|d [|e i]]]]]; [congruence| | | | |];
    repeat match goal with H : Forall _ (_ :: _) |- _ => inversion H; subst; clear H end;
    repeat match goal with H : is_digit ?x = true |- _ => destruct (D x H) as [? [? _]]; revert H end; intros;
    (destruct r as [|h r]; [|destruct (T h r eq_refl) as [? [? ?]]; try (destruct r as [|h1 [|h2 [|h3 r]]])]); cbn [app forallb];
    repeat match goal with H : _ = false |- _ => rewrite H end; rewrite ?andb_false_r; reflexivity.
Qed.
Lemma unmodelled_sign c s : c = "+"%char \/ c = "-"%char -> unmodelled_value (c :: s) = false.
Proof. intros [->| ->]; destruct s as [|? [|? [|? [|? s]]]]; reflexivity. Qed.

Lemma numeral_shape s v t : numeral s v -> quiet t ->
  exists sg i r, s ++ t = sg ++ i ++ r /\ sign_opt sg /\ digits i /\ after_int r.
Proof.
  intros H Ht. assert (X : forall x e, exp_value x e -> after_int (x ++ t)).
  { intros x e Hx c r E. destruct Hx as [p sg z d Hp _ _]. injection E as <- _. destruct Hp as [->| ->]; cbn; tauto. }
  assert (Q : forall r, after_int ("."%char :: r)) by (intros r c q E; injection E as <- _; cbn; tauto).
  destruct H as [sg z i Hs Hi|sg z i x e Hs Hi Hx|sg z i f Hs Hi Hf|sg z i f x e Hs Hi Hf Hx]; exists sg, i;
    rewrite <- !app_assoc; eexists; (split; [reflexivity|]); (split; [exact (sign_value_opt _ _ Hs)|]);
    (split; [apply Hi|]); [apply quiet_after; exact Ht|exact (X x e Hx)|apply Q|apply Q].
Qed.
Lemma value_number s v t : numeral s v -> quiet t -> toml_value (s ++ t) = Some (Ok (v, t)).
Proof.
  intros H Ht. pose proof (toml_number_numeral s v t H Ht) as E.
  destruct (numeral_shape s v t H Ht) as [sg [i [r [Es [Hs [Hi Hr]]]]]]. rewrite Es in *. clear Es.
  assert (U : unmodelled_value (sg ++ i ++ r) = false).
  { destruct Hs; cbn [app]; [apply unmodelled_number; assumption|apply unmodelled_sign; auto|apply unmodelled_sign; auto]. }
  assert (C : exists c q, sg ++ i ++ r = c :: q /\ (is_digit c = true \/ c = "+"%char \/ c = "-"%char)).
  { destruct (digits_head i Hi) as [c [q [-> [Hc _]]]]. destruct Hs; cbn [app]; eexists _, _; (split; [reflexivity|]); auto. }
  destruct C as [c [q [Ec Hc]]]. rewrite Ec in *. unfold toml_value.
  assert (D : forall d, is_digit d = false -> d <> "+"%char -> d <> "-"%char -> Ascii.eqb c d = false).
  { intros d Hd H1 H2. destruct (Ascii.eqb_spec c d); [|reflexivity]. subst d. destruct Hc as [Hc|[Hc|Hc]]; congruence. }
  rewrite !D by (reflexivity || discriminate). cbn [orb].
  assert (D' : forall d, is_digit d = false -> d <> "+"%char -> d <> "-"%char -> Ascii.eqb d c = false).
  { intros d Hd H1 H2. rewrite Ascii.eqb_sym. apply D; assumption. }
  change (lit "true") with ["t";"r";"u";"e"]%char. change (lit "false") with ["f";"a";"l";"s";"e"]%char.
  cbn [prefixb]. rewrite !D' by (reflexivity || discriminate). cbn [andb]. rewrite U, E. reflexivity.
Qed.

Lemma basic_string_plain s t : plain_text s -> basic_string (s ++ dquote :: t) = Some (Ok (s, t)).
Proof.
  induction 1 as [|c s [H1 [H2 H3]] _ IH]; cbn [app basic_string].
  - change (Ascii.eqb dquote dquote) with true. reflexivity.
  - destruct (Ascii.eqb_spec c dquote); [contradiction|]. destruct (Ascii.eqb_spec c "\"); [contradiction|].
    destruct (is_ctrl c) eqn:Ec; [apply is_ctrl_spec in Ec; contradiction|]. rewrite IH. reflexivity.
Qed.
Lemma value_quoted s t : plain_text s -> quiet t -> toml_value (dquote :: s ++ dquote :: t) = Some (Ok (TStr s, t)).
Proof.
  intros H Ht. unfold toml_value. change (Ascii.eqb dquote dquote) with true. cbv iota.
  replace (prefixb [dquote; dquote] (s ++ dquote :: t)) with false.
  - rewrite basic_string_plain by exact H. reflexivity.
  - symmetry. apply prefixb_false. intros r E. destruct s as [|c s].
    + cbn [app] in E. injection E as E. destruct (Ht _ _ E); discriminate.
    + inversion H as [|? ? [Hc _] _]; subst. injection E as E _. contradiction.
Qed.
Lemma value_bool t : toml_value (lit "true" ++ t) = Some (Ok (TBool true, t)) /\
  toml_value (lit "false" ++ t) = Some (Ok (TBool false, t)).
Proof. split; reflexivity. Qed.

Lemma value_special sg z t : sign_value sg z ->
  toml_value ((sg ++ lit "inf") ++ t) = Some (Ok (TFloat (FInf (z <? 0)), t)) /\
  toml_value ((sg ++ lit "nan") ++ t) = Some (Ok (TFloat FNan, t)).
Proof.
  assert (U : forall c r, c = "i"%char \/ c = "n"%char -> unmodelled_value (c :: r) = false).
  { intros c r [->| ->]; destruct r as [|? [|? [|? [|? r]]]]; reflexivity. }
  intros H. destruct H; split; cbn [app]; unfold toml_value; cbn -[unmodelled_value toml_number];
    rewrite ?unmodelled_sign by auto; rewrite ?U by auto; reflexivity.
Qed.

(** ** lines *)
Lemma key_read a k b r : blanks a -> bare_key k -> blanks b ->
  (forall c t, r = c :: t -> is_bare c = false /\ is_ws c = false /\ c <> "."%char) ->
  skip_ws (a ++ k ++ b ++ r) = k ++ b ++ r /\ toml_key (k ++ b ++ r) = Some (Ok (k, r)).
Proof.
  intros Ha [Nk Fk] Hb Hr. assert (Fk' : Forall (fun c => is_bare c = true) k).
  { eapply Forall_impl; [|exact Fk]. intros c. apply key_char_bare. }
  split.
  - rewrite skip_blanks by exact Ha. apply skip_none. intros c q E. destruct k as [|x k]; [congruence|].
    injection E as <- _. inversion Fk'; subst. unfold is_ws. rewrite !(bare_not x) by (assumption || reflexivity). reflexivity.
  - unfold toml_key. rewrite span_app.
    + rewrite skip_blanks by exact Hb. rewrite skip_none by (intros c t E; apply (Hr c t E)).
      destruct k as [|x k]; [congruence|]. destruct r as [|c t]; [reflexivity|]. destruct (Hr c t eq_refl) as [_ [_ Hp]].
      destruct (Ascii.eqb_spec c "."); [contradiction|reflexivity].
    + exact Fk'.
    + intros c t E. destruct b as [|y b]; [apply (Hr c t E)|]. inversion Hb; subst. injection E as <- _. reflexivity.
Qed.
Lemma key_head (k : str) x : bare_key k -> exists c q, k ++ x = c :: q /\ Ascii.eqb c "#" = false /\ Ascii.eqb c "[" = false.
Proof.
  intros [Nk Fk]. destruct k as [|c k]; [congruence|]. inversion Fk as [|? ? Hc _]; subst. apply key_char_bare in Hc.
  exists c, (k ++ x). split; [reflexivity|]. split; apply bare_not; (assumption || reflexivity).
Qed.
Lemma line_header ln k : header ln k -> toml_line ln = Some (Ok (STable k)).
Proof.
  intros H. destruct H as [a b k t Ha Hb Hk Ht]. unfold toml_line.
  rewrite skip_none by (intros c r E; injection E as <- _; reflexivity).
  change (Ascii.eqb "[" "#") with false. change (Ascii.eqb "[" "[") with true. cbv iota.
  destruct (key_read a k b ("]"%char :: t) Ha Hk Hb) as [E1 E2].
  { intros c r E. injection E as <- _. repeat split; discriminate. }
  rewrite E1, E2. destruct (a ++ k ++ b ++ "]"%char :: t) as [|d q] eqn:Ed.
  { destruct a; [destruct Hk as [Hk _]; destruct k; [congruence|discriminate]|discriminate]. }
  replace (Ascii.eqb d "[") with false.
  - change (Ascii.eqb "]" "]") with true. cbv iota. rewrite (tail_end t Ht). reflexivity.
  - symmetry. destruct a as [|y a].
    + destruct (key_head k (b ++ "]"%char :: t) Hk) as [c [q' [Ec [_ Hc]]]]. cbn [app] in Ed. rewrite Ec in Ed. injection Ed as <- _. exact Hc.
    + inversion Ha; subst. injection Ed as <- _. reflexivity.
Qed.
Lemma line_ignored ln : ignored ln -> toml_line ln = Some (Ok SNone).
Proof.
  intros H. destruct H as [|c Hc]; [reflexivity|]. unfold toml_line.
  rewrite skip_none by (intros x r E; injection E as <- _; reflexivity). change (Ascii.eqb "#" "#") with true. cbv iota.
  rewrite (tail_end ("#"%char :: c)); [reflexivity|]. exists []. split; [constructor|]. right. exists c. split; [reflexivity|exact Hc].
Qed.
Lemma line_key a k b c w v t : blanks a -> bare_key k -> blanks b -> blanks c ->
  (forall x r, w = x :: r -> is_ws x = false) -> toml_value w = Some (Ok (v, t)) -> tail t ->
  toml_line (a ++ k ++ b ++ "="%char :: c ++ w) = Some (Ok (SKey k v)).
Proof.
  intros Ha Hk Hb Hc Hw Ev Ht. unfold toml_line.
  destruct (key_read a k b ("="%char :: c ++ w) Ha Hk Hb) as [E1 E2].
  { intros x r E. injection E as <- _. repeat split; discriminate. }
  rewrite E1. destruct (key_head k (b ++ "="%char :: c ++ w) Hk) as [x [q [Eq [H1 H2]]]]. rewrite Eq in *.
  rewrite H1, H2, E2. change (Ascii.eqb "=" "=") with true. cbv iota. rewrite skip_blanks by exact Hc.
  rewrite skip_none by exact Hw. rewrite Ev, (tail_end t Ht). reflexivity.
Qed.

(** ** cleaning a line *)
Lemma Forall_notin (s : str) x : Forall (fun c => c <> x) s -> ~ In x s.
Proof. rewrite Forall_forall. intros H Hi. exact (H x Hi eq_refl). Qed.
Lemma blanks_notin b x : blanks b -> x <> " "%char -> ~ In x b.
Proof. intros H Hx. apply Forall_notin. eapply Forall_impl; [|exact H]. intros c -> E. congruence. Qed.
Lemma blanks_space b : blanks b -> Forall space b.
Proof. apply Forall_impl. intros c ->. apply is_space_spec. reflexivity. Qed.
Lemma key_notin k x : bare_key k -> is_bare x = false -> ~ In x k.
Proof. intros [_ F] Hx Hi. rewrite Forall_forall in F. apply F, key_char_bare in Hi. congruence. Qed.
Lemma upto_app c p s q : ~ In c p -> upto c s q -> upto c (p ++ s) (p ++ q).
Proof.
  intros Hp [Hq E]. split; [rewrite in_app_iff; tauto|]. destruct E as [->|[r ->]]; [left; reflexivity|right; exists r].
  rewrite app_assoc. reflexivity.
Qed.
Lemma upto_exists c s : exists p, upto c s p.
Proof. destruct (upto_split c s) as [p [_ H]]. exists p. exact H. Qed.
Lemma tail_upto t : tail t -> exists t0 b, blanks b /\ upto "=" t t0 /\ upto "#" t0 b.
Proof.
  intros [b [Hb [->|[c [-> _]]]]].
  - exists b, b. split; [exact Hb|]. split; (split; [apply blanks_notin; [exact Hb|discriminate]|left; reflexivity]).
  - destruct (upto_exists "=" ("#"%char :: c)) as [q Hq].
    assert (Eq : exists q', q = "#"%char :: q').
    { destruct Hq as [_ [<-|[r E]]]; [eexists; reflexivity|]. destruct q as [|x q]; [discriminate|]. injection E as <- _. eexists; reflexivity. }
    destruct Eq as [q' ->]. exists (b ++ "#"%char :: q'), b. split; [exact Hb|]. split.
    + apply upto_app; [apply blanks_notin; [exact Hb|discriminate]|exact Hq].
    + split; [apply blanks_notin; [exact Hb|discriminate]|]. right. exists q'. reflexivity.
Qed.
Lemma kv_plain K c s t : ~ In "="%char K -> Forall (fun x => x <> "="%char /\ x <> "#"%char) s -> trimmed s s -> blanks c -> tail t ->
  key_value (K ++ "="%char :: c ++ s ++ t) K s.
Proof.
  intros HK Hs Ht Hc Hl. destruct (tail_upto t Hl) as [t0 [b [Hb [U1 U2]]]].
  assert (N : ~ In "="%char s /\ ~ In "#"%char s).
  { rewrite Forall_forall in Hs. split; intros Hi; apply Hs in Hi; destruct Hi; congruence. }
  exists (c ++ s ++ t), (c ++ s ++ t0), (c ++ s ++ b). split; [reflexivity|]. split; [exact HK|].
  split; [apply upto_app; [apply blanks_notin; [exact Hc|discriminate]|]; apply upto_app; [apply N|exact U1]|].
  split; [apply upto_app; [apply blanks_notin; [exact Hc|discriminate]|]; apply upto_app; [apply N|exact U2]|].
  destruct Ht as [a' [b' [_ [_ [_ [H1 H2]]]]]]. exists c, b. split; [reflexivity|].
  split; [apply blanks_space; exact Hc|]. split; [apply blanks_space; exact Hb|]. split; assumption.
Qed.
Lemma first_nonspace (a b : str) x y p q : Forall space a -> Forall space b -> ~ space x -> ~ space y ->
  a ++ x :: p = b ++ y :: q -> x = y.
Proof.
  intros Ha. revert b. induction Ha as [|c a Hc _ IH]; intros b Hb Hx Hy E.
  - destruct Hb as [|d b Hd _]; injection E as -> _; [reflexivity|contradiction].
  - destruct Hb as [|d b Hd Hb]; injection E as E1 E2; [subst; contradiction|]. exact (IH b Hb Hx Hy E2).
Qed.
Lemma dquote_nonspace : ~ space dquote.
Proof. apply is_space_false. reflexivity. Qed.
Lemma kv_quoted K c r : ~ In "="%char K -> blanks c -> exists w, key_value (K ++ "="%char :: c ++ dquote :: r) K (dquote :: w).
Proof.
  intros HK Hc. destruct (upto_exists "=" r) as [r0 U1]. destruct (upto_exists "#" r0) as [r1 U2].
  assert (P : forall x s q, x = "="%char \/ x = "#"%char -> upto x s q -> upto x (c ++ dquote :: s) (c ++ dquote :: q)).
  { intros x s q Hx H. apply upto_app; [apply blanks_notin; [exact Hc|destruct Hx; subst; discriminate]|].
    apply (upto_app x [dquote]); [intros [E|[]]; destruct Hx; subst; discriminate|exact H]. }
  pose proof (strip_trimmed (c ++ dquote :: r1)) as T.
  assert (E : exists w, strip (c ++ dquote :: r1) = dquote :: w).
  { destruct T as [a [b [E [Ha [Hb [H1 _]]]]]]. destruct (strip (c ++ dquote :: r1)) as [|x w] eqn:Es.
    - exfalso. cbn [app] in E. assert (Hi : In dquote (a ++ b)) by (rewrite <- E; apply in_or_app; right; left; reflexivity).
      apply in_app_or in Hi. rewrite Forall_forall in Ha, Hb. apply dquote_nonspace. destruct Hi as [Hi|Hi]; [exact (Ha _ Hi)|exact (Hb _ Hi)].
    - exists w. f_equal. symmetry. exact (first_nonspace c a dquote x _ _ (blanks_space c Hc) Ha dquote_nonspace (H1 x w eq_refl) E). }
  destruct E as [w E]. rewrite E in T. exists w, (c ++ dquote :: r), (c ++ dquote :: r0), (c ++ dquote :: r1).
  split; [reflexivity|]. split; [exact HK|]. split; [apply P; auto|]. split; [apply P; auto|exact T].
Qed.

Definition num_char (c : ascii) : Prop := is_digit c = true \/ In c ["+";"-";".";"e";"E"]%char.
Lemma numeral_chars s v : numeral s v -> Forall num_char s.
Proof.
  assert (D : forall d, digits d -> Forall num_char d).
  { intros d [_ F]. apply Forall_digit in F. eapply Forall_impl; [|exact F]. intros c Hc. left. exact Hc. }
  assert (G : forall sg z, sign_value sg z -> Forall num_char sg).
  { intros sg z H. destruct H; repeat constructor; right; cbn; tauto. }
  assert (X : forall x e, exp_value x e -> Forall num_char x).
  { intros x e H. destruct H as [p sg z d Hp Hs Hd]. constructor; [right; destruct Hp as [->| ->]; cbn; tauto|].
    apply Forall_app. split; [exact (G _ _ Hs)|exact (D _ Hd)]. }
  assert (P : num_char ".") by (right; cbn; tauto).
  intros H. destruct H as [sg z i Hs [Hi _]|sg z i x e Hs [Hi _] Hx|sg z i f Hs [Hi _] Hf|sg z i f x e Hs [Hi _] Hf Hx];
    repeat (apply Forall_app; split); eauto; constructor; eauto. apply Forall_app; split; eauto.
Qed.
Lemma num_char_not c d : num_char c -> is_digit d = false -> ~ In d ["+";"-";".";"e";"E"]%char -> c <> d.
Proof. intros H Hd Hn ->. destruct H; [congruence|contradiction]. Qed.
Lemma num_char_nonspace c : num_char c -> ~ space c.
Proof.
  intros [H|H]; apply is_space_false; [apply digit_not_space; exact H|].
  cbn [In] in H. destruct H as [<-|[<-|[<-|[<-|[<-|[]]]]]]; reflexivity.
Qed.
Lemma nonspace_trimmed s : Forall (fun c => ~ space c) s -> trimmed s s.
Proof.
  intros H. exists [], []. rewrite app_nil_r. split; [reflexivity|]. split; [constructor|]. split; [constructor|].
  rewrite Forall_forall in H. split; intros c r E; apply H; rewrite E; [left; reflexivity|apply in_or_app; right; left; reflexivity].
Qed.
Lemma exp_value_opt x e : exp_value x e -> exponent_opt x.
Proof. intros H. destruct H. constructor; [assumption| |assumption]. eapply sign_value_opt. eassumption. Qed.
Lemma numeral_trimmed s v : numeral s v -> trimmed s s.
Proof. intros H. apply nonspace_trimmed. eapply Forall_impl; [|exact (numeral_chars s v H)]. intros c. apply num_char_nonspace. Qed.
Lemma numeral_number s v : numeral s v -> exists sg u, s = sg ++ u /\ sign_opt sg /\ number u.
Proof.
  intros H. destruct H as [sg z i Hs [Hi _]|sg z i x e Hs [Hi _] Hx|sg z i f Hs [Hi _] Hf|sg z i f x e Hs [Hi _] Hf Hx];
    exists sg; eexists; (split; [reflexivity|]); (split; [exact (sign_value_opt _ _ Hs)|]).
  - rewrite <- (app_nil_r i). apply nb_int; [exact Hi|constructor].
  - apply nb_int; [exact Hi|exact (exp_value_opt _ _ Hx)].
  - rewrite <- (app_nil_r f). apply nb_both; [exact Hi|exact Hf|constructor].
  - apply nb_both; [exact Hi|exact Hf|exact (exp_value_opt _ _ Hx)].
Qed.
Lemma numeral_float s v : numeral s v -> float_literal s.
Proof.
  intros H. destruct (numeral_number s v H) as [sg [u [E [Hs Hu]]]].
  assert (N : Forall (fun c => Ascii.eqb c "_" = false) s).
  { eapply Forall_impl; [|exact (numeral_chars s v H)]. intros c Hc. destruct (Ascii.eqb_spec c "_"); [|reflexivity].
    exfalso. apply (num_char_not c "_" Hc); [reflexivity| |assumption]. cbn. intuition discriminate. }
  exists s, sg, u. split; [exact (numeral_trimmed s v H)|].
  split; [apply us_ok_well; apply us_ok_no_us; exact N|]. split; [|auto].
  rewrite <- E. apply (remove_char_none "_"). exact N.
Qed.

Lemma clean_is ln k v out : (forall r, ln <> "$"%char :: r) -> ~ plain_line ln -> key_value ln k v ->
  (toml_ready v /\ out = ln \/ ~ toml_ready v /\ out = k ++ lit "= " ++ [dquote] ++ v ++ [dquote]) -> clean_line ln = Ok out.
Proof.
  intros Hd Hp Hk Ho. destruct (clean_line_ok ln ln) as [o [E R]].
  - constructor. exact Hd.
  - intros [_ Hn]. apply Hn. destruct Hk as [r [v0 [v1 [-> _]]]]. apply in_or_app. right. left. reflexivity.
  - rewrite E. f_equal. apply (rewritten_unique ln); [exact R|].
    destruct Ho as [[Hr ->]|[Hr ->]]; [exact (rw_ready _ _ _ Hp Hk Hr)|exact (rw_quoted _ _ _ Hp Hk Hr)].
Qed.
Lemma clean_plain ln : plain_line ln -> clean_line ln = Ok ln.
Proof.
  intros H. destruct (clean_line_ok ln ln) as [o [E R]].
  - constructor. intros r ->. destruct H as [H|[q [H|H]]]; discriminate.
  - intros [Hn _]. contradiction.
  - rewrite E. f_equal. apply (rewritten_unique ln); [exact R|constructor; exact H].
Qed.
Lemma clean_talker ln : ~ In "$"%char ln -> clean_line ("$"%char :: ln) = clean_line ln.
Proof.
  intros H. assert (E : drop_dollar ("$"%char :: ln) = drop_dollar ln); [|unfold clean_line; rewrite E; reflexivity].
  assert (E1 : drop_dollar ln = ln).
  { apply (undollared_unique ln); [apply drop_dollar_spec|constructor]. intros r ->. apply H. left. reflexivity. }
  rewrite E1. unfold drop_dollar. change (prefixb (lit "$") ("$"%char :: ln)) with true. cbv iota.
  unfold remove_char. cbn [filter]. change (negb (Ascii.eqb "$" "$")) with false. cbv iota.
  apply (remove_char_none "$"). rewrite Forall_forall. intros c Hc. destruct (Ascii.eqb_spec c "$"); [subst; contradiction|reflexivity].
Qed.
Lemma entry_reads ln k v : entry ln k v -> exists out, clean_line ln = Ok out /\ toml_line out = Some (Ok (SKey k v)).
Proof.
  induction 1 as [a k b c s t v Ha Hk Hb Hc Hv Ht|ln k v H IH Hn]; [|rewrite clean_talker by exact Hn; exact IH].
  assert (HK : ~ In "="%char (a ++ k ++ b)).
  { rewrite !in_app_iff. intros [H|[H|H]]; revert H; [apply blanks_notin; [exact Ha|discriminate]|apply key_notin; [exact Hk|reflexivity]
                                                     |apply blanks_notin; [exact Hb|discriminate]]. }
  assert (EL : a ++ k ++ b ++ "="%char :: c ++ s ++ t = (a ++ k ++ b) ++ "="%char :: c ++ s ++ t) by (rewrite <- !app_assoc; reflexivity).
  assert (HH : exists x q, a ++ k ++ b ++ "="%char :: c ++ s ++ t = x :: q /\ x <> "["%char /\ x <> "#"%char /\ x <> "$"%char).
  { destruct Ha as [|y a Hy Ha].
    - destruct Hk as [Nk Fk]. destruct k as [|x k]; [congruence|]. inversion Fk as [|? ? Hx _]; subst. apply key_char_bare in Hx.
      exists x. eexists. split; [reflexivity|]. repeat split; intros ->; discriminate.
    - subst y. eexists _, _. split; [reflexivity|]. repeat split; discriminate. }
  destruct HH as [x [q [EH [N1 [N2 N3]]]]].
  assert (Hd : forall r, a ++ k ++ b ++ "="%char :: c ++ s ++ t <> "$"%char :: r) by (intros r E; rewrite EH in E; injection E; congruence).
  assert (Hp : ~ plain_line (a ++ k ++ b ++ "="%char :: c ++ s ++ t)).
  { rewrite EH. intros [E|[r [E|E]]]; [discriminate| |]; injection E; congruence. }
  clear EH.
  assert (Ready : forall w, toml_ready w -> key_value (a ++ k ++ b ++ "="%char :: c ++ s ++ t) (a ++ k ++ b) w ->
            (forall y r, s ++ t = y :: r -> is_ws y = false) -> toml_value (s ++ t) = Some (Ok (v, t)) ->
            exists out, clean_line (a ++ k ++ b ++ "="%char :: c ++ s ++ t) = Ok out /\ toml_line out = Some (Ok (SKey k v))).
  { intros w Hr Hkv Hw Ev. eexists. split; [exact (clean_is _ _ w _ Hd Hp Hkv (or_introl (conj Hr eq_refl)))|].
    apply (line_key a k b c (s ++ t) v t); assumption. }
  assert (Spec : forall sg z u, sign_value sg z -> u = lit "inf" \/ u = lit "nan" -> float_literal (sg ++ u) /\
            Forall (fun y => ~ space y /\ y <> "="%char /\ y <> "#"%char) (sg ++ u) /\ exists y q, sg ++ u = y :: q /\ is_ws y = false).
  { intros sg z u Hs Hu. assert (F : Forall (fun y => ~ space y /\ y <> "="%char /\ y <> "#"%char /\ Ascii.eqb y "_" = false) (sg ++ u)).
    { apply Forall_app. split; [destruct Hs|destruct Hu as [->| ->]]; repeat constructor; try discriminate; apply is_space_false; reflexivity. }
    split; [|split; [eapply Forall_impl; [|exact F]; cbv beta; tauto|destruct Hs, Hu as [->| ->]; eexists _, _; split; reflexivity]].
    assert (N : Forall (fun y => Ascii.eqb y "_" = false) (sg ++ u)) by (eapply Forall_impl; [|exact F]; cbv beta; tauto).
    exists (sg ++ u), sg, u. split; [apply nonspace_trimmed; eapply Forall_impl; [|exact F]; cbv beta; tauto|].
    split; [apply us_ok_well; apply us_ok_no_us; exact N|]. split; [apply (remove_char_none "_"); exact N|].
    split; [exact (sign_value_opt _ _ Hs)|]. left. unfold special. destruct Hu as [->| ->]; cbn; tauto. }
  assert (Special : forall sg z u, sign_value sg z -> u = lit "inf" \/ u = lit "nan" -> s = sg ++ u -> toml_value (s ++ t) = Some (Ok (v, t)) ->
            exists out, clean_line (a ++ k ++ b ++ "="%char :: c ++ s ++ t) = Ok out /\ toml_line out = Some (Ok (SKey k v))).
  { intros sg z u Hs Hu Es Ev. destruct (Spec sg z u Hs Hu) as [P1 [P2 [y [q' [P3 P4]]]]]. rewrite <- Es in *.
    apply (Ready s); [right; right; right; exact P1|rewrite EL; apply kv_plain; try assumption| |exact Ev].
    - eapply Forall_impl; [|exact P2]. cbv beta. tauto.
    - apply nonspace_trimmed. eapply Forall_impl; [|exact P2]. cbv beta. tauto.
    - rewrite P3. intros y' r E. injection E as <- _. exact P4. }
  destruct Hv as [| |s v Hv|sg z Hs|sg z Hs|s Hs|s Hs].
  - apply (Ready (lit "true")); [left; reflexivity|rewrite EL; apply kv_plain; try assumption| |apply value_bool].
    + repeat constructor; discriminate.
    + apply nonspace_trimmed. repeat constructor; apply is_space_false; reflexivity.
    + intros y r E. injection E as <- _. reflexivity.
  - apply (Ready (lit "false")); [right; left; reflexivity|rewrite EL; apply kv_plain; try assumption| |apply value_bool].
    + repeat constructor; discriminate.
    + apply nonspace_trimmed. repeat constructor; apply is_space_false; reflexivity.
    + intros y r E. injection E as <- _. reflexivity.
  - pose proof (numeral_chars s v Hv) as Hc'.
    apply (Ready s); [right; right; right; exact (numeral_float s v Hv)|rewrite EL; apply kv_plain; try assumption| |apply value_number; [exact Hv|apply tail_quiet; exact Ht]].
    + eapply Forall_impl; [|exact Hc']. intros y Hy. split; apply (num_char_not y _ Hy); (reflexivity || (cbn; intuition discriminate)).
    + exact (numeral_trimmed s v Hv).
    + intros y r E. destruct (numeral_number s v Hv) as [sg [u [Es [_ Hu]]]]. destruct s as [|z s].
      * exfalso. symmetry in Es. apply app_eq_nil in Es. destruct Es as [_ ->].
        assert (Z : forall (m n : str), m ++ n = [] -> ~ digits m) by (intros m n Em [Nm _]; destruct m; [congruence|discriminate]).
        inversion Hu as [i x' Hi Hx E1|i x' Hi Hx E1|i f x' Hi Hf Hx E1|f x' Hf Hx E1]; try discriminate; exact (Z _ _ E1 Hi).
      * injection E as <- _. inversion Hc' as [|? ? Hz _]; subst. apply num_char_nonspace in Hz.
        destruct (is_ws z) eqn:Ez; [|reflexivity]. exfalso. apply Hz. apply is_space_spec. unfold is_ws in Ez.
        apply orb_true_iff in Ez. destruct Ez as [Ez|Ez]; apply Ascii.eqb_eq in Ez; subst z; reflexivity.
  - exact (Special sg z _ Hs (or_introl eq_refl) eq_refl (proj1 (value_special sg z t Hs))).
  - exact (Special sg z _ Hs (or_intror eq_refl) eq_refl (proj2 (value_special sg z t Hs))).
  - destruct (kv_quoted (a ++ k ++ b) c (s ++ [dquote] ++ t) HK Hc) as [w Hw].
    assert (ES : (dquote :: s ++ [dquote]) ++ t = dquote :: s ++ dquote :: t) by (cbn [app]; rewrite <- app_assoc; reflexivity).
    apply (Ready (dquote :: w)).
    + right. right. left. exists w. reflexivity.
    + rewrite EL, ES. exact Hw.
    + rewrite ES. intros y r E. injection E as <- _. reflexivity.
    + rewrite ES. apply value_quoted; [exact Hs|apply tail_quiet; exact Ht].
  - destruct Hs as [H1 [H2 [H3 [H4 [H5 H6]]]]]. clear Ready.
    exists ((a ++ k ++ b) ++ lit "= " ++ [dquote] ++ s ++ [dquote]). split.
    + apply (clean_is _ (a ++ k ++ b) s _ Hd Hp); [rewrite EL; apply kv_plain; assumption|]. right. split; [|reflexivity].
      intros [R|[R|[[r R]|R]]]; try contradiction. subst s. inversion H6 as [|? ? [Hq _] _]; subst. congruence.
    + replace ((a ++ k ++ b) ++ lit "= " ++ [dquote] ++ s ++ [dquote]) with (a ++ k ++ b ++ "="%char :: [" "%char] ++ dquote :: s ++ dquote :: [])
        by (rewrite <- !app_assoc; reflexivity).
      apply (line_key a k b [" "%char] _ (TStr s) []); try assumption.
      * repeat constructor.
      * intros y r E. injection E as <- _. reflexivity.
      * apply value_quoted; [exact H6|]. intros y r E. discriminate.
      * exists []. split; [constructor|left; reflexivity].
Qed.
Lemma header_reads ln k : header ln k -> exists out, clean_line ln = Ok out /\ toml_line out = Some (Ok (STable k)).
Proof.
  intros H. exists ln. split; [|apply line_header; exact H]. apply clean_plain. destruct H. right. eexists. left. reflexivity.
Qed.
Lemma ignored_reads ln : ignored ln -> exists out, clean_line ln = Ok out /\ toml_line out = Some (Ok SNone).
Proof.
  intros H. exists ln. split; [|apply line_ignored; exact H]. apply clean_plain. destruct H; [left; reflexivity|right; eexists; right; reflexivity].
Qed.
Lemma clean_no_nl ln out : ~ In nl ln -> clean_line ln = Ok out -> ~ In nl out.
Proof.
  intros Hn E Hi. pose proof (drop_dollar_spec ln) as U. set (l := drop_dollar ln) in *.
  assert (Hl : ~ In nl l).
  { intros H. apply Hn. destruct U as [m _|r]; [exact H|]. apply filter_In in H. right. apply H. }
  destruct (offending_dec l) as [Ho|Ho]; [rewrite (clean_line_raises ln l U Ho) in E; discriminate|].
  destruct (clean_line_ok ln l U Ho) as [o [E1 R]]. rewrite E in E1. injection E1 as <-.
  destruct R as [m _|m k v _ _ _|m k v _ Hk _]; [contradiction|contradiction|].
  destruct Hk as [rest [v0 [v1 [-> [_ [[_ U0] [[_ U1] [a [b [-> _]]]]]]]]]].
  assert (Hv : In nl v -> In nl rest).
  { intros H. assert (H0 : In nl v0) by (destruct U1 as [->|[r ->]]; rewrite ?in_app_iff; tauto).
    destruct U0 as [->|[r ->]]; rewrite ?in_app_iff; tauto. }
  apply Hl. rewrite in_app_iff. rewrite !in_app_iff in Hi. cbn [In].
  destruct Hi as [H|[H|[H|[H|H]]]]; [tauto| | |tauto|]; cbn in H; exfalso; intuition discriminate.
Qed.

(** ** documents *)
Fixpoint run (sts : list stmt) (tp : table) (ts : list (str * table)) : res doc :=
  match sts with
  | [] => Ok (mk_doc tp (rev ts))
  | SNone :: rest => run rest tp ts
  | STable k :: rest =>
      match assoc k tp, assoc k ts with None, None => run rest tp ((k, []) :: ts) | _, _ => Raise ValueError end
  | SKey k v :: rest =>
      match ts with
      | [] => match assoc k tp with Some _ => Raise ValueError | None => run rest (tp ++ [(k, v)]) [] end
      | (n, t) :: ts' => match assoc k t with Some _ => Raise ValueError | None => run rest tp ((n, t ++ [(k, v)]) :: ts') end
      end
  end.
Lemma toml_lines_run outs sts : Forall2 (fun o st => toml_line o = Some (Ok st)) outs sts ->
  forall tp ts, toml_lines (outs ++ [[]]) tp ts = Some (run sts tp ts).
Proof.
  induction 1 as [|o st outs sts E _ IH]; intros tp ts; cbn [app toml_lines run]; [reflexivity|]. rewrite E.
  destruct st as [|k|k v]; [apply IH| |].
  - destruct (assoc k tp), (assoc k ts); try reflexivity. apply IH.
  - destruct ts as [|[n t] ts]; [destruct (assoc k tp)|destruct (assoc k t)]; try reflexivity; apply IH.
Qed.
Lemma split_written outs : Forall (fun o => ~ In nl o) outs -> split [nl] (written outs) = outs ++ [[]].
Proof.
  induction 1 as [|o outs H _ IH]; [reflexivity|]. unfold written. cbn [map concat]. rewrite <- app_assoc. cbn [app].
  rewrite split_char_cons by exact H. fold (written outs). rewrite IH. reflexivity.
Qed.
Lemma assoc_in {A} k (l : list (str * A)) : (exists v, assoc k l = Some v) <-> In k (map fst l).
Proof.
  induction l as [|[k' v] l IH]; cbn [assoc map fst In].
  - split; [intros [v E]; discriminate|intros []].
  - destruct (str_eqb k' k) eqn:E.
    + apply str_eqb_eq in E. split; [intros _; left; exact E|intros _; eexists; reflexivity].
    + apply str_eqb_neq in E. rewrite IH. tauto.
Qed.
Lemma assoc_none {A} k (l : list (str * A)) : assoc k l = None <-> ~ In k (map fst l).
Proof. rewrite <- assoc_in. destruct (assoc k l) as [v|]; split; [discriminate|intros H; exfalso; apply H; eauto|intros _ [v E]; discriminate|reflexivity]. Qed.

(** the statements of a list of entries *)
Inductive stm : list stmt -> table -> Prop :=
| stm_nil : stm [] []
| stm_skip : forall s t, stm s t -> stm (SNone :: s) t
| stm_key : forall s k v t, stm s t -> stm (SKey k v :: s) ((k, v) :: t).
Inductive sec : list stmt -> list (str * table) -> Prop :=
| sec_nil : sec [] []
| sec_cons : forall n s t r ts, stm s t -> sec r ts -> sec (STable n :: s ++ r) ((n, t) :: ts).

Lemma dup_mid (A B : list str) k : In k A -> ~ NoDup (A ++ k :: B).
Proof. intros H N. apply NoDup_remove_2 in N. apply N. apply in_or_app. left. exact H. Qed.
Lemma nodup_snoc (A : list str) k : NoDup A -> ~ In k A -> NoDup (A ++ [k]).
Proof. intros H Hk. apply (NoDup_Add (a := k) (l := A)); [|split; assumption]. rewrite <- (app_nil_r A) at 1. apply Add_app. Qed.
Lemma run_top s t : stm s t -> forall more tp, NoDup (map fst tp) ->
  (NoDup (map fst (tp ++ t)) -> run (s ++ more) tp [] = run more (tp ++ t) []) /\
  (~ NoDup (map fst (tp ++ t)) -> run (s ++ more) tp [] = Raise ValueError).
Proof.
  induction 1 as [|s t _ IH|s k v t _ IH]; intros more tp Hn; cbn [app run].
  - rewrite app_nil_r. split; [reflexivity|contradiction].
  - apply IH. exact Hn.
  - destruct (assoc k tp) as [w|] eqn:E.
    + assert (Hk : In k (map fst tp)) by (apply assoc_in; eauto). rewrite map_app. cbn [map fst]. split; [|reflexivity].
      intros N. exfalso. exact (dup_mid _ _ _ Hk N).
    + apply assoc_none in E. replace (tp ++ (k, v) :: t) with ((tp ++ [(k, v)]) ++ t) by (rewrite <- app_assoc; reflexivity).
      apply IH. rewrite map_app. apply nodup_snoc; assumption.
Qed.
Lemma run_cur s t : stm s t -> forall more tp n t0 ts, NoDup (map fst t0) ->
  (NoDup (map fst (t0 ++ t)) -> run (s ++ more) tp ((n, t0) :: ts) = run more tp ((n, t0 ++ t) :: ts)) /\
  (~ NoDup (map fst (t0 ++ t)) -> run (s ++ more) tp ((n, t0) :: ts) = Raise ValueError).
Proof.
  induction 1 as [|s t _ IH|s k v t _ IH]; intros more tp n t0 ts Hn; cbn [app run].
  - rewrite app_nil_r. split; [reflexivity|contradiction].
  - apply IH. exact Hn.
  - destruct (assoc k t0) as [w|] eqn:E.
    + assert (Hk : In k (map fst t0)) by (apply assoc_in; eauto). rewrite map_app. cbn [map fst]. split; [|reflexivity].
      intros N. exfalso. exact (dup_mid _ _ _ Hk N).
    + apply assoc_none in E. replace (t0 ++ (k, v) :: t) with ((t0 ++ [(k, v)]) ++ t) by (rewrite <- app_assoc; reflexivity).
      apply IH. rewrite map_app. apply nodup_snoc; assumption.
Qed.
Lemma nodup_dec (l : list str) : NoDup l \/ ~ NoDup l.
Proof. destruct (ListDec.NoDup_dec (list_eq_dec ascii_dec) l); [left|right]; assumption. Qed.
Lemma run_sec s ss : sec s ss -> forall tp ts, distinct (mk_doc tp (rev ts)) ->
  (distinct (mk_doc tp (rev ts ++ ss)) -> run s tp ts = Ok (mk_doc tp (rev ts ++ ss))) /\
  (~ distinct (mk_doc tp (rev ts ++ ss)) -> run s tp ts = Raise ValueError).
Proof.
  induction 1 as [|n s t r ss Hs _ IH]; intros tp ts Hd; cbn [run].
  - rewrite app_nil_r. split; [reflexivity|contradiction].
  - destruct Hd as [D1 D2]. cbn [top tables] in D1, D2.
    destruct (in_dec (list_eq_dec ascii_dec) n (map fst tp ++ map fst (rev ts))) as [Hi|Hi].
    + assert (Hr : (match assoc n tp, assoc n ts with None, None => run (s ++ r) tp ((n, []) :: ts) | _, _ => Raise ValueError end) = Raise ValueError).
      { destruct (assoc n tp) as [v|] eqn:E1; [reflexivity|]. destruct (assoc n ts) as [v|] eqn:E2; [reflexivity|].
        apply assoc_none in E1. apply assoc_none in E2. exfalso. apply in_app_or in Hi. destruct Hi as [Hi|Hi]; [contradiction|].
        rewrite map_rev in Hi. apply in_rev in Hi. contradiction. }
      split; [|intros _; exact Hr]. intros [N _]. exfalso. cbn [top tables] in N. rewrite map_app, app_assoc in N. exact (dup_mid _ _ _ Hi N).
    + assert (E1 : assoc n tp = None) by (apply assoc_none; intros H; apply Hi; apply in_or_app; left; exact H).
      assert (E2 : assoc n ts = None).
      { apply assoc_none. intros H. apply Hi. apply in_or_app. right. rewrite map_rev. apply in_rev in H. exact H. }
      rewrite E1, E2. destruct (run_cur s t Hs r tp n [] ts (NoDup_nil _)) as [R1 R2]. cbn [app] in R1, R2.
      assert (EA : rev ts ++ (n, t) :: ss = rev ((n, t) :: ts) ++ ss) by (cbn [rev]; rewrite <- app_assoc; reflexivity).
      destruct (nodup_dec (map fst t)) as [Nt|Nt].
      * rewrite (R1 Nt), EA. apply IH. split; cbn [top tables rev].
        -- rewrite map_app, app_assoc. apply nodup_snoc; assumption.
        -- apply Forall_app. split; [exact D2|]. constructor; [exact Nt|constructor].
      * rewrite (R2 Nt). split; [|reflexivity]. intros [_ F]. exfalso. apply Nt. cbn [tables] in F. apply Forall_app in F.
        destruct F as [_ F]. inversion F; subst. assumption.
Qed.
Lemma nodup_left (A B : list str) : NoDup (A ++ B) -> NoDup A.
Proof.
  induction A as [|a A IH]; intros H; [constructor|]. cbn [app] in H. inversion H as [|? ? H1 H2]; subst.
  constructor; [|exact (IH H2)]. intros Hi. apply H1. apply in_or_app. left. exact Hi.
Qed.
Lemma run_doc s1 s2 d : stm s1 (top d) -> sec s2 (tables d) ->
  (distinct d -> run (s1 ++ s2) [] [] = Ok d) /\ (~ distinct d -> run (s1 ++ s2) [] [] = Raise ValueError).
Proof.
  intros H1 H2. destruct d as [tp ts]. cbn [top tables] in *.
  destruct (run_top s1 tp H1 s2 [] (NoDup_nil _)) as [R1 R2]. cbn [app] in R1, R2.
  destruct (nodup_dec (map fst tp)) as [N|N].
  - rewrite (R1 N). apply (run_sec s2 ts H2 tp []). split; cbn [top tables rev map]; [rewrite app_nil_r; exact N|constructor].
  - rewrite (R2 N). split; [|reflexivity]. intros [D _]. exfalso. apply N. cbn [top tables] in D. exact (nodup_left _ _ D).
Qed.

Definition reads (ln : str) (st : stmt) : Prop := exists out, clean_line ln = Ok out /\ toml_line out = Some (Ok st).
Lemma entries_stm ls t : entries ls t -> exists s, Forall2 reads ls s /\ stm s t.
Proof.
  induction 1 as [|ln ls t H _ [s [F S1]]|ln ls k v t H _ [s [F S1]]].
  - exists []. split; constructor.
  - exists (SNone :: s). split; constructor; try assumption. apply ignored_reads. exact H.
  - exists (SKey k v :: s). split; constructor; try assumption. apply entry_reads. exact H.
Qed.
Lemma sections_sec ls ts : sections ls ts -> exists s, Forall2 reads ls s /\ sec s ts.
Proof.
  induction 1 as [|ln n ls t rest ts H He _ [s [F S1]]].
  - exists []. split; constructor.
  - destruct (entries_stm ls t He) as [s' [F' S2]]. exists (STable n :: s' ++ s). split; [|constructor; assumption].
    constructor; [apply header_reads; exact H|apply Forall2_app; assumption].
Qed.
Lemma load_reads f p text t ls s : f p = Some text -> substituted text t -> lines_of t ls -> Forall2 reads ls s ->
  meter_conf f p = Some (run s [] []).
Proof.
  intros Ef Hs Hl Hr. pose proof (substituted_unique _ _ _ (clean_subs_spec text) Hs) as Et.
  assert (Ho : exists outs, Forall2 (fun ln o => clean_line ln = Ok o) ls outs /\ Forall2 (fun o st => toml_line o = Some (Ok st)) outs s).
  { clear - Hr. induction Hr as [|ln st ls s [o [E1 E2]] _ [outs [F1 F2]]]; [exists []; split; constructor|].
    exists (o :: outs). split; constructor; assumption. }
  destruct Ho as [outs [F1 F2]].
  assert (Hn : Forall (fun o => ~ In nl o) outs).
  { destruct Hl as [_ [_ Hl]]. clear - F1 Hl. induction F1 as [|ln o ls outs E _ IH]; [constructor|].
    inversion Hl; subst. constructor; [apply (clean_no_nl ln); assumption|apply IH; assumption]. }
  unfold meter_conf, clean_ini_to_toml. rewrite Ef, Et. apply lines_of_split in Hl. rewrite <- Hl.
  rewrite (clean_loop_ok ls outs F1). unfold fs_write.
  replace (str_eqb (toml_path p) (toml_path p)) with true by (symmetry; apply str_eqb_eq; reflexivity).
  unfold toml_load. rewrite split_written by exact Hn. apply toml_lines_run. exact F2.
Qed.

(** ** numbers that TOML rejects *)
Lemma eol_raises c r : is_ws c = false -> c <> "#"%char -> end_of_line (c :: r) = Raise ValueError.
Proof.
  intros H Hc. unfold end_of_line. rewrite skip_none by (intros x q E; injection E as <- _; exact H).
  destruct (Ascii.eqb_spec c "#"); [contradiction|reflexivity].
Qed.
Lemma digit_ws c : is_digit c = true -> is_ws c = false /\ c <> "#"%char.
Proof.
  intros H. split; [|intros ->; discriminate]. unfold is_ws. rewrite !(digit_neq c) by (exact H || reflexivity). reflexivity.
Qed.
(** neither a value nor a value followed by the end of the line *)
Definition bad_value (w : str) : Prop :=
  toml_value w = Some (Raise ValueError) \/ exists v r, toml_value w = Some (Ok (v, r)) /\ end_of_line r = Raise ValueError.
Definition not_value_start (c : ascii) : Prop := c <> dquote /\ c <> "'"%char /\ c <> "["%char /\ c <> "{"%char /\ c <> "t"%char /\ c <> "f"%char.
Lemma value_otherwise c q : not_value_start c -> unmodelled_value (c :: q) = false ->
  toml_value (c :: q) = match toml_number (c :: q) with
                        | Some (v, r) => Some (Ok (v, r))
                        | None => let '(neg, u) := take_sign (c :: q) in
                                  if prefixb (lit "inf") u then Some (Ok (TFloat (FInf neg), skipn 3 u))
                                  else if prefixb (lit "nan") u then Some (Ok (TFloat FNan, skipn 3 u)) else Some (Raise ValueError)
                        end.
Proof.
  intros [H1 [H2 [H3 [H4 [H5 H6]]]]] U. unfold toml_value. rewrite U.
  assert (N : forall d, c <> d -> Ascii.eqb c d = false) by (intros d Hd; destruct (Ascii.eqb_spec c d); [contradiction|reflexivity]).
  rewrite !N by assumption. change (lit "true") with ["t";"r";"u";"e"]%char. change (lit "false") with ["f";"a";"l";"s";"e"]%char.
  cbn [prefixb orb]. rewrite (Ascii.eqb_sym "t" c), (Ascii.eqb_sym "f" c), !N by assumption. reflexivity.
Qed.
Lemma sign_start sg c q : sign_opt sg -> not_value_start c -> exists x r, sg ++ c :: q = x :: r /\ not_value_start x.
Proof.
  intros H Hc. destruct H; eexists _, _; (split; [reflexivity|]); [exact Hc| |]; repeat split; discriminate.
Qed.
Lemma digit_start c : is_digit c = true -> not_value_start c.
Proof. intros H. repeat split; intros ->; discriminate. Qed.
Lemma unmodelled_signed sg u : sign_opt sg -> unmodelled_value u = false -> unmodelled_value (sg ++ u) = false.
Proof. intros H Hu. destruct H; [exact Hu|apply unmodelled_sign; auto|apply unmodelled_sign; auto]. Qed.
Lemma sign_valued sg : sign_opt sg -> exists z, sign_value sg z.
Proof. intros H. destruct H; eexists; constructor. Qed.
Lemma number_then sg i r v q t : sign_opt sg -> digits i -> after_int r -> toml_number (sg ++ i ++ r) = Some (v, q :: t) ->
  is_ws q = false -> q <> "#"%char -> bad_value (sg ++ i ++ r).
Proof.
  intros Hs Hi Hr E Hq1 Hq2. right. exists v, (q :: t). split; [|apply eol_raises; assumption].
  pose proof (unmodelled_signed sg _ Hs (unmodelled_number i r Hi Hr)) as U.
  destruct (digits_head i Hi) as [c [i' [-> [Hc _]]]]. cbn [app] in *.
  destruct (sign_start sg c (i' ++ r) Hs (digit_start c Hc)) as [x [y [Ex Hx]]]. rewrite Ex in *.
  rewrite value_otherwise by assumption. rewrite E. reflexivity.
Qed.
Lemma exponent_after x t : exponent_opt x -> quiet t -> after_int (x ++ t).
Proof.
  intros H Ht c r E. destruct H as [|e sg d He _ _]; [exact (quiet_after t Ht c r E)|].
  injection E as <- _. destruct He as [->| ->]; cbn; tauto.
Qed.
Lemma after_not_digit r : after_int r -> forall c t, r = c :: t -> is_digit c = false.
Proof. intros H c t E. apply after_head. exact (H c t E). Qed.
Lemma zero_or_not i : digits i -> no_leading_zero i \/ exists d r, i = "0"%char :: d :: r /\ is_digit d = true.
Proof.
  intros Hi. destruct (digits_head i Hi) as [c [r [-> [Hc Hr]]]]. destruct (ascii_dec c "0") as [->|Hn].
  - destruct r as [|d r]; [left; split; [exact Hi|left; reflexivity]|]. right. exists d, r. split; [reflexivity|].
    inversion Hr; subst. apply is_digit_spec. assumption.
  - left. split; [exact Hi|]. right. intros q E. injection E as E _. contradiction.
Qed.
Lemma bad_zero sg d w : sign_opt sg -> is_digit d = true -> (exists i r, "0"%char :: d :: w = i ++ r /\ digits i /\ after_int r) ->
  bad_value (sg ++ "0"%char :: d :: w).
Proof.
  intros Hs Hd [i [r [E [Hi Hr]]]]. destruct (sign_valued sg Hs) as [z Hz].
  destruct (take_sign_value sg z ("0"%char :: d :: w) Hz) as [n [En _]].
  { intros c q Ec. injection Ec as <- _. split; discriminate. }
  destruct (digit_ws d Hd) as [W1 W2].
  assert (N : toml_number (sg ++ "0"%char :: d :: w) = Some (finish n ["0"%char] [] None (d :: w))).
  { refine (toml_number_steps _ _ _ _ (d :: w) _ (d :: w) _ _ En _ _ _).
    - reflexivity.
    - apply frac_step_none. intros q Eq. injection Eq as -> _. discriminate.
    - cbn [exp_step]. rewrite !(digit_neq d) by (exact Hd || reflexivity). reflexivity. }
  rewrite E in *. refine (number_then sg i r _ d w Hs Hi Hr N W1 W2).
Qed.
Lemma bad_number s t : rejected_number s -> quiet t -> bad_value (s ++ t).
Proof.
  intros H Ht. destruct H as [sg d u Hs Hd Hu|sg i x Hs Hi Hx|sg f x Hs Hf Hx|sg u Hs Hu N1 N2]; rewrite <- ?app_assoc; cbn [app]; rewrite <- ?app_assoc.
  - apply bad_zero; [exact Hs|apply is_digit_spec; exact Hd|].
    assert (A : forall i (r : str), digits i -> after_int (r ++ t) -> "0"%char :: d :: u = i ++ r ->
              exists i0 r0, "0"%char :: d :: u ++ t = i0 ++ r0 /\ digits i0 /\ after_int r0).
    { intros i r Hi Hr E. exists i, (r ++ t). split; [|split; assumption]. rewrite app_assoc, <- E. reflexivity. }
    assert (P : forall r, after_int (("."%char :: r) ++ t)) by (intros r c q E; injection E as <- _; cbn; tauto).
    inversion Hu as [i x Hi Hx E|i x Hi Hx E|i f x Hi Hf Hx E|f x Hf Hx E].
    + exact (A i x Hi (exponent_after x t Hx Ht) (eq_sym E)).
    + exact (A i _ Hi (P x) (eq_sym E)).
    + exact (A i _ Hi (P (f ++ x)) (eq_sym E)).
  - assert (P : after_int ("."%char :: x ++ t)) by (intros c q E; injection E as <- _; cbn; tauto).
    destruct (zero_or_not i Hi) as [Z|[d [r [Ei Hd]]]].
    + destruct (sign_valued sg Hs) as [z Hz].
      destruct (take_sign_value sg z (i ++ "."%char :: x ++ t) Hz) as [n [En _]]; [apply digits_not_sign; exact Hi|].
      assert (N : toml_number (sg ++ i ++ "."%char :: x ++ t) = Some (finish n i [] None ("."%char :: x ++ t))).
      { refine (toml_number_steps _ _ _ _ ("."%char :: x ++ t) _ ("."%char :: x ++ t) _ _ En (int_step_app i _ Z (point_stops _)) _ eq_refl).
        cbn [frac_step]. destruct (x ++ t) as [|c q] eqn:Ex; [reflexivity|].
        rewrite (after_not_digit (x ++ t) (exponent_after x t Hx Ht) c q Ex), andb_false_r. reflexivity. }
      refine (number_then sg i _ _ "." (x ++ t) Hs Hi P N eq_refl _). discriminate.
    + pose proof (bad_zero sg d (r ++ "."%char :: x ++ t) Hs Hd) as B.
      replace (i ++ "."%char :: x ++ t) with ("0"%char :: d :: r ++ "."%char :: x ++ t) by (rewrite Ei; reflexivity).
      apply B. exists i, ("."%char :: x ++ t). split; [rewrite Ei; reflexivity|split; [exact Hi|exact P]].
  - left. destruct (sign_start sg "." (f ++ x ++ t) Hs) as [c [q [Ec Hc]]]; [repeat split; discriminate|].
    assert (U : unmodelled_value (sg ++ "."%char :: f ++ x ++ t) = false).
    { apply unmodelled_signed; [exact Hs|]. destruct (f ++ x ++ t) as [|? [|? [|? [|? ?]]]]; reflexivity. }
    rewrite Ec in *. rewrite value_otherwise by assumption. rewrite <- Ec.
    destruct (sign_valued sg Hs) as [z Hz]. destruct (take_sign_value sg z ("."%char :: f ++ x ++ t) Hz) as [n [En _]].
    { intros y r E. injection E as <- _. split; discriminate. }
    unfold toml_number. rewrite En. reflexivity.
  - assert (L : exists c w, u = c :: w /\ In (lower c) ["i";"n"]%char).
    { unfold special in Hu. destruct u as [|c w]; [destruct Hu as [E|[E|[E|[]]]]; discriminate|]. exists c, w. split; [reflexivity|].
      destruct Hu as [E|[E|[E|[]]]]; injection E as E _; rewrite <- E; cbn; tauto. }
    destruct L as [c [w [Eu Hc]]].
    assert (Hc' : not_value_start c /\ is_digit c = false).
    { assert (B : forallb (fun c => implb (existsb (Ascii.eqb (lower c)) ["i";"n"]%char)
                (negb (is_digit c) && forallb (fun d => negb (Ascii.eqb c d)) [dquote;"'";"[";"{";"t";"f"]%char)) all_ascii = true) by (vm_compute; reflexivity).
      pose proof (ascii_forallb _ B c) as Q. cbv beta in Q.
      replace (existsb (Ascii.eqb (lower c)) ["i";"n"]%char) with true in Q
        by (symmetry; apply existsb_exists; exists (lower c); split; [exact Hc|apply ascii_eqb_refl]).
      cbn [implb] in Q. apply andb_true_iff in Q. destruct Q as [Q1 Q2]. apply negb_true_iff in Q1. split; [|exact Q1].
      rewrite forallb_forall in Q2. assert (K : forall d, In d [dquote;"'";"[";"{";"t";"f"]%char -> c <> d).
      { intros d Hd E. specialize (Q2 d Hd). subst d. rewrite ascii_eqb_refl in Q2. discriminate. }
      repeat split; apply K; cbn; tauto. }
    destruct Hc' as [Hc1 Hc2].
    destruct (sign_start sg c (w ++ t) Hs Hc1) as [x [q [Ex Hx]]].
    assert (U : unmodelled_value (sg ++ c :: w ++ t) = false).
    { apply unmodelled_signed; [exact Hs|]. unfold unmodelled_value.
      assert (P0 : existsb (fun p => prefixb (lit p) (c :: w ++ t)) ["0x";"0o";"0b"]%string = false).
      { cbn [existsb]. change (lit "0x") with ["0";"x"]%char. change (lit "0o") with ["0";"o"]%char. change (lit "0b") with ["0";"b"]%char.
        cbn [prefixb]. replace (Ascii.eqb "0" c) with false; [reflexivity|]. symmetry. rewrite Ascii.eqb_sym.
        destruct (Ascii.eqb_spec c "0"); [subst c; discriminate|reflexivity]. }
      rewrite P0, orb_false_r. destruct (w ++ t) as [|? [|? [|? [|? ?]]]]; cbn [forallb]; rewrite ?Hc2; reflexivity. }
    destruct (sign_valued sg Hs) as [z Hz]. destruct (take_sign_value sg z (c :: w ++ t) Hz) as [n [En _]].
    { intros y r E. apply (special_not_sign u Hu y w). injection E as <- _. exact Eu. }
    unfold bad_value. rewrite Eu. cbn [app]. rewrite Ex in *. rewrite value_otherwise by assumption. unfold toml_number. rewrite En. rewrite Hc2. cbn [negb].
    assert (Pi : forall p r, c :: w ++ t = lit p ++ r -> (p = "inf" \/ p = "nan")%string -> exists y y', r = y :: y' /\ is_ws y = false /\ y <> "#"%char).
    { intros p r E Hp. assert (Hw : In (map lower (c :: w)) [lit "inf"; lit "infinity"; lit "nan"]) by (rewrite <- Eu; exact Hu).
      assert (Eq : (c :: w) ++ t = lit p ++ r) by exact E. clear E.
      assert (G : forall a b e (u0 : str), map lower (c :: w) = [a; b; e] -> (c :: w) ++ t = lit p ++ r -> c :: w = lit p).
      { intros a b e u0 E1 E2. destruct w as [|w1 [|w2 [|w3 w]]]; try discriminate.
        destruct Hp as [-> | ->]; injection E2 as -> -> -> _; reflexivity. }
      rewrite Eu in N1, N2. destruct Hw as [E|[E|[E|[]]]].
      - exfalso. pose proof (G _ _ _ [] (eq_sym E) Eq) as E'. destruct Hp as [-> | ->]; contradiction.
      - destruct w as [|w1 [|w2 [|w3 [|w4 [|w5 [|w6 [|w7 [|]]]]]]]]; try discriminate.
        assert (Er : r = w3 :: w4 :: w5 :: w6 :: w7 :: t) by (destruct Hp as [-> | ->]; injection Eq; intros; congruence).
        exists w3. eexists. split; [exact Er|]. injection E as _ _ _ E3 _ _ _ _.
        split; [unfold is_ws; destruct (Ascii.eqb_spec w3 " "); [subst w3; discriminate|]; destruct (Ascii.eqb_spec w3 tab); [subst w3; discriminate|reflexivity]
               |intros ->; discriminate].
      - exfalso. pose proof (G _ _ _ [] (eq_sym E) Eq) as E'. destruct Hp as [-> | ->]; contradiction. }
    destruct (prefixb (lit "inf") (c :: w ++ t)) eqn:E1.
    { right. apply prefixb_spec in E1. destruct E1 as [r Er]. destruct (Pi "inf"%string r Er (or_introl eq_refl)) as [y [y' [-> [Y1 Y2]]]].
      eexists _, _. split; [reflexivity|]. rewrite Er. cbn [lit list_ascii_of_string app skipn]. apply eol_raises; assumption. }
    destruct (prefixb (lit "nan") (c :: w ++ t)) eqn:E2.
    { right. apply prefixb_spec in E2. destruct E2 as [r Er]. destruct (Pi "nan"%string r Er (or_intror eq_refl)) as [y [y' [-> [Y1 Y2]]]].
      eexists _, _. split; [reflexivity|]. rewrite Er. cbn [lit list_ascii_of_string app skipn]. apply eol_raises; assumption. }
    left. reflexivity.
Qed.

Definition lit_char (c : ascii) : Prop := ~ space c /\ c <> "="%char /\ c <> "#"%char /\ Ascii.eqb c "_" = false.
Lemma num_lit_char c : num_char c -> lit_char c.
Proof.
  intros H. split; [apply num_char_nonspace; exact H|].
  assert (K : forall d, is_digit d = false -> ~ In d ["+";"-";".";"e";"E"]%char -> c <> d) by (intros d; apply num_char_not; exact H).
  split; [apply K; [reflexivity|cbn; intuition discriminate]|]. split; [apply K; [reflexivity|cbn; intuition discriminate]|].
  destruct (Ascii.eqb_spec c "_"); [|reflexivity]. exfalso. revert e. apply K; [reflexivity|cbn; intuition discriminate].
Qed.
Lemma number_chars u : number u -> Forall num_char u.
Proof.
  assert (D : forall d, digits d -> Forall num_char d).
  { intros d [_ F]. apply Forall_digit in F. eapply Forall_impl; [|exact F]. intros c Hc. left. exact Hc. }
  assert (X : forall x, exponent_opt x -> Forall num_char x).
  { intros x H. destruct H as [|e sg d He Hs Hd]; constructor; [right; destruct He as [->| ->]; cbn; tauto|].
    apply Forall_app. split; [destruct Hs; repeat constructor; right; cbn; tauto|exact (D _ Hd)]. }
  assert (P : num_char ".") by (right; cbn; tauto).
  intros H. destruct H as [i x Hi Hx|i x Hi Hx|i f x Hi Hf Hx|f x Hf Hx].
  - apply Forall_app. auto.
  - apply Forall_app. split; [auto|]. constructor; auto.
  - apply Forall_app. split; [auto|]. constructor; [auto|]. apply Forall_app. auto.
  - constructor; [auto|]. apply Forall_app. auto.
Qed.
Lemma literal_chars sg u : sign_opt sg -> special u \/ number u -> Forall lit_char (sg ++ u).
Proof.
  intros Hs Hu. apply Forall_app. split.
  - destruct Hs; repeat constructor; try discriminate; apply is_space_false; reflexivity.
  - destruct Hu as [Hu|Hu]; [|eapply Forall_impl; [|exact (number_chars u Hu)]; intros c; apply num_lit_char].
    assert (L : Forall (fun c => In (lower c) ["i";"n";"f";"t";"y";"a"]%char) u).
    { apply Forall_forall. intros c Hc. apply (in_map lower) in Hc.
      destruct Hu as [E|[E|[E|[]]]]; rewrite <- E in Hc; cbn in Hc; cbn; tauto. }
    eapply Forall_impl; [|exact L]. intros c Hc. cbv beta in Hc.
    assert (B : forallb (fun c => implb (existsb (Ascii.eqb (lower c)) ["i";"n";"f";"t";"y";"a"]%char)
              (negb (is_space c) && forallb (fun d => negb (Ascii.eqb c d)) ["=";"#";"_"]%char)) all_ascii = true) by (vm_compute; reflexivity).
    pose proof (ascii_forallb _ B c) as Q. cbv beta in Q.
    replace (existsb (Ascii.eqb (lower c)) ["i";"n";"f";"t";"y";"a"]%char) with true in Q
      by (symmetry; apply existsb_exists; exists (lower c); split; [exact Hc|apply ascii_eqb_refl]).
    cbn [implb forallb] in Q. rewrite !andb_true_iff, !negb_true_iff in Q. destruct Q as [Q1 [Q2 [Q3 [Q4 _]]]].
    split; [apply is_space_false; exact Q1|]. split; [intros ->; rewrite ascii_eqb_refl in Q2; discriminate|].
    split; [intros ->; rewrite ascii_eqb_refl in Q3; discriminate|exact Q4].
Qed.
Lemma literal_float sg u : sign_opt sg -> special u \/ number u -> float_literal (sg ++ u).
Proof.
  intros Hs Hu. pose proof (literal_chars sg u Hs Hu) as F.
  assert (N : Forall (fun y => Ascii.eqb y "_" = false) (sg ++ u)) by (eapply Forall_impl; [|exact F]; intros c Hc; apply Hc).
  exists (sg ++ u), sg, u. split; [apply nonspace_trimmed; eapply Forall_impl; [|exact F]; intros c Hc; apply Hc|].
  split; [apply us_ok_well; apply us_ok_no_us; exact N|]. split; [apply (remove_char_none "_"); exact N|auto].
Qed.
Lemma rejected_literal s : rejected_number s -> exists sg u, s = sg ++ u /\ sign_opt sg /\ (special u \/ number u).
Proof.
  intros H. destruct H as [sg d u Hs Hd Hu|sg i x Hs Hi Hx|sg f x Hs Hf Hx|sg u Hs Hu _ _]; exists sg; eexists;
    (split; [reflexivity|]); (split; [exact Hs|]); [right; exact Hu|right; apply nb_point; assumption|right; apply nb_frac; assumption|left; exact Hu].
Qed.
Lemma line_bad a k b c w : blanks a -> bare_key k -> blanks b -> blanks c ->
  (forall x r, w = x :: r -> is_ws x = false) -> bad_value w ->
  toml_line (a ++ k ++ b ++ "="%char :: c ++ w) = Some (Raise ValueError).
Proof.
  intros Ha Hk Hb Hc Hw Ev. unfold toml_line.
  destruct (key_read a k b ("="%char :: c ++ w) Ha Hk Hb) as [E1 E2].
  { intros x r E. injection E as <- _. repeat split; discriminate. }
  rewrite E1. destruct (key_head k (b ++ "="%char :: c ++ w) Hk) as [x [q [Eq [H1 H2]]]]. rewrite Eq in *.
  rewrite H1, H2, E2. change (Ascii.eqb "=" "=") with true. cbv iota. rewrite skip_blanks by exact Hc.
  rewrite skip_none by exact Hw. destruct Ev as [Ev|[v [r [Ev El]]]]; rewrite Ev; [reflexivity|]. rewrite El. reflexivity.
Qed.
Lemma rejected_reads ln : rejected_entry ln -> clean_line ln = Ok ln /\ toml_line ln = Some (Raise ValueError).
Proof.
  intros H. destruct H as [a k b c s t Ha Hk Hb Hc Hr Ht].
  destruct (rejected_literal s Hr) as [sg [u [Es [Hs Hu]]]]. pose proof (literal_chars sg u Hs Hu) as F. rewrite <- Es in F.
  assert (Nn : s <> []).
  { intros ->. symmetry in Es. apply app_eq_nil in Es. destruct Es as [_ ->]. destruct Hu as [[E|[E|[E|[]]]]|Hu]; try discriminate.
    assert (Z : forall (m n : str), m ++ n = [] -> ~ digits m) by (intros m n Em [Nm _]; destruct m; [congruence|discriminate]).
    inversion Hu as [i x' Hi Hx E1|i x' Hi Hx E1|i f x' Hi Hf Hx E1|f x' Hf Hx E1]; try discriminate; exact (Z _ _ E1 Hi). }
  assert (HK : ~ In "="%char (a ++ k ++ b)).
  { rewrite !in_app_iff. intros [H|[H|H]]; revert H; [apply blanks_notin; [exact Ha|discriminate]|apply key_notin; [exact Hk|reflexivity]
                                                     |apply blanks_notin; [exact Hb|discriminate]]. }
  assert (EL : a ++ k ++ b ++ "="%char :: c ++ s ++ t = (a ++ k ++ b) ++ "="%char :: c ++ s ++ t) by (rewrite <- !app_assoc; reflexivity).
  assert (HH : exists x q, a ++ k ++ b ++ "="%char :: c ++ s ++ t = x :: q /\ x <> "["%char /\ x <> "#"%char /\ x <> "$"%char).
  { destruct Ha as [|y a Hy Ha].
    - destruct Hk as [Nk Fk]. destruct k as [|x k]; [congruence|]. inversion Fk as [|? ? Hx _]; subst. apply key_char_bare in Hx.
      exists x. eexists. split; [reflexivity|]. repeat split; intros ->; discriminate.
    - subst y. eexists _, _. split; [reflexivity|]. repeat split; discriminate. }
  destruct HH as [x [q [EH [N1 [N2 N3]]]]]. split.
  - apply (clean_is _ (a ++ k ++ b) s).
    + intros r E. rewrite EH in E. injection E. congruence.
    + rewrite EH. intros [E|[r [E|E]]]; [discriminate| |]; injection E; congruence.
    + rewrite EL. apply kv_plain; try assumption; [eapply Forall_impl; [|exact F]; intros y Hy; split; apply Hy|].
      apply nonspace_trimmed. eapply Forall_impl; [|exact F]. intros y Hy. apply Hy.
    + left. split; [|reflexivity]. right. right. right. rewrite Es. apply literal_float; assumption.
  - apply line_bad; try assumption; [|apply bad_number; [exact Hr|apply tail_quiet; exact Ht]].
    intros y r E. destruct s as [|z s]; [congruence|]. injection E as <- _. inversion F as [|? ? [Hz _] _]; subst.
    destruct (is_ws z) eqn:Ez; [|reflexivity]. exfalso. apply Hz. apply is_space_spec. unfold is_ws in Ez.
    apply orb_true_iff in Ez. destruct Ez as [Ez|Ez]; apply Ascii.eqb_eq in Ez; subst z; reflexivity.
Qed.
Lemma toml_lines_raise outs sts o rest : Forall2 (fun o st => toml_line o = Some (Ok st)) outs sts ->
  toml_line o = Some (Raise ValueError) -> forall tp ts, toml_lines (outs ++ o :: rest) tp ts = Some (Raise ValueError).
Proof.
  intros H Ho. induction H as [|o' st outs sts E _ IH]; intros tp ts; cbn [app toml_lines]; [rewrite Ho; reflexivity|]. rewrite E.
  destruct st as [|k|k v]; [apply IH| |].
  - destruct (assoc k tp), (assoc k ts); try reflexivity. apply IH.
  - destruct ts as [|[n t] ts]; [destruct (assoc k tp)|destruct (assoc k t)]; try reflexivity; apply IH.
Qed.
Lemma load_raises f p text t pre ln post s : f p = Some text -> substituted text t -> lines_of t (pre ++ ln :: post) ->
  Forall2 reads pre s -> clean_line ln = Ok ln -> toml_line ln = Some (Raise ValueError) ->
  Forall (fun l => forall l', undollared l l' -> ~ offending l') post -> meter_conf f p = Some (Raise ValueError).
Proof.
  intros Ef Hs Hl Hr Ec El Hp. pose proof (substituted_unique _ _ _ (clean_subs_spec text) Hs) as Et.
  assert (Ho : exists outs, Forall2 (fun ln o => clean_line ln = Ok o) pre outs /\ Forall2 (fun o st => toml_line o = Some (Ok st)) outs s).
  { clear - Hr. induction Hr as [|l st ls s [o [E1 E2]] _ [outs [F1 F2]]]; [exists []; split; constructor|].
    exists (o :: outs). split; constructor; assumption. }
  destruct Ho as [outs [F1 F2]].
  assert (Hq : exists outs', Forall2 (fun ln o => clean_line ln = Ok o) post outs').
  { clear - Hp. induction Hp as [|l ls H _ [outs F]]; [exists []; constructor|].
    destruct (clean_line_ok l _ (drop_dollar_spec l) (H _ (drop_dollar_spec l))) as [o [E _]]. exists (o :: outs). constructor; assumption. }
  destruct Hq as [outs' F3].
  assert (F : Forall2 (fun ln o => clean_line ln = Ok o) (pre ++ ln :: post) (outs ++ ln :: outs')) by (apply Forall2_app; [exact F1|constructor; assumption]).
  assert (Hn : Forall (fun o => ~ In nl o) (outs ++ ln :: outs')).
  { destruct Hl as [_ [_ Hl]]. clear - F Hl. induction F as [|l o ls os E _ IH]; [constructor|].
    inversion Hl; subst. constructor; [apply (clean_no_nl l); assumption|apply IH; assumption]. }
  unfold meter_conf, clean_ini_to_toml. rewrite Ef, Et. apply lines_of_split in Hl. rewrite <- Hl.
  rewrite (clean_loop_ok _ _ F). unfold fs_write.
  replace (str_eqb (toml_path p) (toml_path p)) with true by (symmetry; apply str_eqb_eq; reflexivity).
  unfold toml_load. rewrite split_written by exact Hn. rewrite <- app_assoc. cbn [app]. exact (toml_lines_raise outs s ln _ F2 El [] []).
Qed.

(** ** agreement with float() *)
Lemma py_float_signed sg z u : sign_value sg z -> number u -> exists n, py_float (sg ++ u) = parse_dec n u /\ forall x, signed n x = z * x.
Proof.
  intros Hs Hu. pose proof (literal_chars sg u (sign_value_opt _ _ Hs) (or_intror Hu)) as F.
  assert (N : Forall (fun y => Ascii.eqb y "_" = false) (sg ++ u)) by (eapply Forall_impl; [|exact F]; intros c Hc; apply Hc).
  destruct (take_sign_value sg z u Hs (number_not_sign u Hu)) as [n [En Ez]]. exists n. split; [|exact Ez].
  unfold py_float. rewrite strip_id by (eapply Forall_impl; [|exact F]; intros c Hc; apply is_space_false; apply Hc).
  rewrite us_ok_no_us by exact N. cbn [negb]. rewrite remove_char_none by exact N. rewrite En.
  assert (M : forall w c r, In c ["i";"n"]%char -> w = c :: r -> map lower u <> w).
  { intros w c r Hc -> E. destruct u as [|x u]; [discriminate|]. cbn [map] in E. injection E as E _.
    pose proof (number_chars _ Hu) as Fc. inversion Fc as [|? ? [Hx|Hx] _]; subst.
    - assert (B : forallb (fun c => implb (is_digit c) (is_digit (lower c))) all_ascii = true) by (vm_compute; reflexivity).
      pose proof (ascii_forallb _ B x) as Q. cbv beta in Q. rewrite Hx in Q. cbn [implb] in Q.
      destruct Hc as [Hc|[Hc|[]]]; rewrite <- Hc in Q; discriminate.
    - cbn [In] in Hx. destruct Hx as [<-|[<-|[<-|[<-|[<-|[]]]]]]; cbn in Hc; intuition discriminate. }
  replace (str_eqb (map lower u) (lit "inf")) with false by (symmetry; apply str_eqb_neq; eapply M; [|reflexivity]; cbn; tauto).
  replace (str_eqb (map lower u) (lit "infinity")) with false by (symmetry; apply str_eqb_neq; eapply M; [|reflexivity]; cbn; tauto).
  replace (str_eqb (map lower u) (lit "nan")) with false by (symmetry; apply str_eqb_neq; eapply M; [|reflexivity]; cbn; tauto).
  reflexivity.
Qed.
Lemma parse_exp n i f p x e : exp_value x e -> digits i -> (f = [] /\ p = [] \/ digits f /\ p = "."%char :: f) ->
  parse_dec n (i ++ p ++ x) = Ok (FDec (signed n (digits_val (i ++ f))) (e - Z.of_nat (List.length f))) /\
  parse_dec n (i ++ p) = Ok (FDec (signed n (digits_val (i ++ f))) (- Z.of_nat (List.length f))).
Proof.
  intros Hx Hi Hf. pose proof (proj2 Hi) as Fi. apply Forall_digit in Fi.
  destruct Hx as [c sg z d Hc Hs Hd].
  assert (Hc' : is_digit c = false /\ Ascii.eqb c "." = false) by (destruct Hc as [->| ->]; split; reflexivity).
  assert (Ec : Ascii.eqb c "e" || Ascii.eqb c "E" = true) by (destruct Hc as [->| ->]; reflexivity).
  destruct (take_sign_value sg z d Hs) as [m [Em Ez]].
  { intros y r E. apply (digits_not_sign d [] Hd y r). rewrite app_nil_r. exact E. }
  assert (Ni : exists y i', i ++ f = y :: i') by (destruct i; [destruct Hi; congruence|eexists _, _; reflexivity]).
  destruct Ni as [y [i' Ny]].
  assert (Dd : forallb is_digit d = true) by (apply forallb_Forall; apply Forall_digit; apply Hd).
  assert (Nd : d <> []) by apply Hd.
  assert (R : forall r, r = c :: sg ++ d ->
    match r with
    | [] => Ok (FDec (signed n (digits_val (i ++ f))) (- Z.of_nat (List.length f)))
    | c :: r' => if Ascii.eqb c "e" || Ascii.eqb c "E" then
        let '(eneg, d) := take_sign r' in
        match d with
        | [] => Raise ValueError
        | _ => if forallb is_digit d then Ok (FDec (signed n (digits_val (i ++ f))) (- Z.of_nat (List.length f) + signed eneg (digits_val d)))
               else Raise ValueError
        end else Raise ValueError
    end = Ok (FDec (signed n (digits_val (i ++ f))) (z * decimal d - Z.of_nat (List.length f)))).
  { intros r ->. rewrite Ec, Em. rewrite Dd, Ez, decimal_val. destruct d as [|d0 d]; [congruence|]. f_equal. f_equal. lia. }
  destruct Hf as [[-> ->]|[Hf ->]]; cbn [app]; rewrite ?app_nil_r in *; unfold parse_dec.
  - split.
    + rewrite span_app; [|exact Fi|intros q r E; injection E as <- _; apply Hc']. destruct Hc' as [_ Hp]. rewrite Hp.
      rewrite app_nil_r, Ny. rewrite <- Ny. exact (R _ eq_refl).
    + rewrite <- (app_nil_r i) at 1. rewrite span_app; [|exact Fi|intros q r E; discriminate]. rewrite app_nil_r, Ny. reflexivity.
  - pose proof (proj2 Hf) as Ff. apply Forall_digit in Ff. split.
    + rewrite span_app; [|exact Fi|intros q r E; injection E as <- _; reflexivity]. change (Ascii.eqb "." ".") with true. cbv iota.
      rewrite span_app; [|exact Ff|intros q r E; injection E as <- _; apply Hc']. rewrite Ny. rewrite <- Ny. exact (R _ eq_refl).
    + rewrite span_app; [|exact Fi|intros q r E; injection E as <- _; reflexivity]. change (Ascii.eqb "." ".") with true. cbv iota.
      rewrite <- (app_nil_r f) at 1. rewrite span_app; [|exact Ff|intros q r E; discriminate]. rewrite Ny. reflexivity.
Qed.
