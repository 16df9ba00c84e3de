(** Property C92: what a cleaned ini file means to the TOML reader. *)
From Coq Require Import ZArith QArith Ascii String Bool Lia List.
From Verif Require Import M_Py M_Str S_Str L_Str M_Ini S_Ini L_Ini M_Toml S_Toml L_Toml.
Import ListNotations.
Open Scope Z_scope.

Definition n : string := String nl EmptyString.
Definition q : string := String dquote EmptyString.
Definition one_file (p text : string) : fs := fun x => if str_eqb x (lit p) then Some (lit text) else None.

(** C92: a file of comments, headers and entries with plain values loads, and gives these values. *)
Theorem C92_loads : forall f p text t ls d, f p = Some text -> substituted text t -> lines_of t ls -> ini_doc ls d ->
  distinct d -> meter_conf f p = Some (Ok d).
Proof.
  intros f p text t ls d Ef Hs Hl [a [b [-> [Ha Hb]]]] Hd.
  destruct (entries_stm a _ Ha) as [s1 [F1 S1]]. destruct (sections_sec b _ Hb) as [s2 [F2 S2]].
  rewrite (load_reads f p text t _ (s1 ++ s2) Ef Hs Hl (Forall2_app F1 F2)). f_equal. apply (run_doc s1 s2 d S1 S2). exact Hd.
Qed.
Print Assumptions C92_loads.

Definition meter_text : string :=
  ("// DGS meter" ++ n ++ "Owner = Ride" ++ n ++ "[Sensor]" ++ n ++ "GravCal = 414125.5   // mGal" ++ n ++ "g0=-12" ++ n ++
   "locked = TRUE" ++ n ++ "Name = at1m 7" ++ n ++ "" ++ n ++ "[Talkers]" ++ n ++ "$GPGGA = " ++ q ++ "on=1 # x" ++ q)%string.
Definition meter_doc : doc :=
  mk_doc [(lit "Owner", TStr (lit "Ride"))]
    [(lit "Sensor", [(lit "GravCal", TFloat (FDec 4141255 (-1))); (lit "g0", TInt (-12)); (lit "locked", TBool true); (lit "Name", TStr (lit "at1m 7"))]);
     (lit "Talkers", [(lit "GPGGA", TStr (lit "on=1 # x"))])].
Example C92_loads_case : meter_conf (one_file "Meter.ini" meter_text) (lit "Meter.ini") = Some (Ok meter_doc).
Proof. vm_compute. reflexivity. Qed.
Example C92_hyps : entry (lit "GravCal = 414125.5   # mGal") (lit "GravCal") (TFloat (FDec 4141255 (-1))) /\
  entry (lit "$GPGGA = yes ") (lit "GPGGA") (TStr (lit "yes")) /\ header (lit "[Sensor]") (lit "Sensor").
Proof.
  assert (K : forall s, forallb (fun c => existsb (Ascii.eqb c) (lit "ABCDEFGHIJKLMNOPQRSTUVWXYZabcdefghijklmnopqrstuvwxyz0123456789_-")) s = true ->
              s <> [] -> bare_key s).
  { intros s H N. split; [exact N|]. apply Forall_forall. intros c Hc. rewrite forallb_forall in H. specialize (H c Hc).
    apply existsb_exists in H. destruct H as [x [Hx E]]. apply Ascii.eqb_eq in E. subst x. exact Hx. }
  assert (NC : forall s, forallb (fun c => negb (is_ctrl c)) s = true -> Forall (fun x => ~ control x) s).
  { intros s H. apply Forall_forall. intros c Hc Hx. rewrite forallb_forall in H. apply is_ctrl_spec in Hx. specialize (H c Hc).
    rewrite Hx in H. discriminate. }
  assert (D : forall s, forallb is_digit s = true -> s <> [] -> digits s).
  { intros s H N. split; [exact N|]. apply Forall_digit. apply forallb_Forall. exact H. }
  split; [|split].
  - refine (en_plain [] (lit "GravCal") (lit " ") (lit " ") (lit "414125.5") (lit "   # mGal") _ _ _ _ _ _ _).
    + constructor.
    + apply K; [reflexivity|discriminate].
    + repeat constructor.
    + repeat constructor.
    + apply iv_number. refine (nu_frac [] 1 (lit "414125") (lit "5") sv_none _ _).
      * split; [apply D; [reflexivity|discriminate]|right; intros r E; discriminate].
      * apply D; [reflexivity|discriminate].
    + exists (lit "   "). split; [repeat constructor|]. right. exists (lit " mGal"). split; [reflexivity|apply NC; reflexivity].
  - refine (en_talker (lit "GPGGA = yes ") _ _ _ _); [|cbn; intuition discriminate].
    refine (en_plain [] (lit "GPGGA") (lit " ") (lit " ") (lit "yes") (lit " ") _ _ _ _ _ _ _).
    + constructor.
    + apply K; [reflexivity|discriminate].
    + repeat constructor.
    + repeat constructor.
    + apply iv_bare. split; [exact (strip_trimmed (lit "yes"))|]. split; [discriminate|]. split; [discriminate|]. split.
      { intros H. apply py_float_spec in H. destruct H as [v E]. vm_compute in E. discriminate. }
      split; [repeat constructor; discriminate|]. pose proof (NC (lit "yes") eq_refl) as F.
      repeat (inversion F as [|? ? ? F']; subst; clear F; rename F' into F; constructor; [repeat split; (discriminate || assumption)|]). constructor.
    + exists (lit " "). split; [repeat constructor|left; reflexivity].
  - refine (hd_intro [] [] (lit "Sensor") [] _ _ _ _); [constructor|constructor|apply K; [reflexivity|discriminate]|].
    exists []. split; [constructor|left; reflexivity].
Qed.

(** A key given twice in a section, or a section given twice, makes the load fail. *)
Theorem C92_duplicates : forall f p text t ls d, f p = Some text -> substituted text t -> lines_of t ls -> ini_doc ls d ->
  ~ distinct d -> meter_conf f p = Some (Raise ValueError).
Proof.
  intros f p text t ls d Ef Hs Hl [a [b [-> [Ha Hb]]]] Hd.
  destruct (entries_stm a _ Ha) as [s1 [F1 S1]]. destruct (sections_sec b _ Hb) as [s2 [F2 S2]].
  rewrite (load_reads f p text t _ (s1 ++ s2) Ef Hs Hl (Forall2_app F1 F2)). f_equal. apply (run_doc s1 s2 d S1 S2). exact Hd.
Qed.
Print Assumptions C92_duplicates.
Example C92_duplicates_case :
  meter_conf (one_file "a.ini" ("[s]" ++ n ++ "x = 1" ++ n ++ "x = 2")) (lit "a.ini") = Some (Raise ValueError) /\
  meter_conf (one_file "a.ini" ("[s]" ++ n ++ "x = 1" ++ n ++ "[t]" ++ n ++ "x = 2")) (lit "a.ini")
  = Some (Ok (mk_doc [] [(lit "s", [(lit "x", TInt 1)]); (lit "t", [(lit "x", TInt 2)])])).
Proof. split; vm_compute; reflexivity. Qed.

(** The substitutions leave a text alone that has no double slash, tab, TRUE or FALSE. *)
Theorem C92_text_kept : forall text, ~ occurs (lit "//") text -> ~ In tab text -> ~ occurs (lit "TRUE") text ->
  ~ occurs (lit "FALSE") text -> substituted text text.
Proof.
  intros text H1 H2 H3 H4. exists text, text, text. split; [constructor; exact H1|].
  split; [constructor; rewrite occurs_char; exact H2|]. split; constructor; assumption.
Qed.
Print Assumptions C92_text_kept.
Example C92_text_kept_case : substituted (lit "x = 1 / 2") (lit "x = 1 / 2").
Proof.
  apply C92_text_kept.
  - apply containsb_false. reflexivity.
  - cbn. intuition discriminate.
  - apply containsb_false. reflexivity.
  - apply containsb_false. reflexivity.
Qed.

(** A number that loads has the value float() gives to its text. *)
Theorem C92_same_number : forall s v, numeral s v ->
  (exists m, v = TInt m /\ py_float s = Ok (FDec m 0)) \/ exists x, v = TFloat x /\ py_float s = Ok x.
Proof.
  assert (X1 : exp_value (lit "e0") (1 * decimal (lit "0"))).
  { apply (ev "e" [] 1 (lit "0")); [left; reflexivity|constructor|]. split; [discriminate|]. repeat constructor. }
  intros s v H. pose proof (numeral_number s v H) as _.
  destruct H as [sg z i Hs [Hi _]|sg z i x e Hs [Hi _] Hx|sg z i f Hs [Hi _] Hf|sg z i f x e Hs [Hi _] Hf Hx].
  - left. exists (z * decimal i). split; [reflexivity|].
    destruct (py_float_signed sg z i Hs) as [k [E Ez]]; [rewrite <- (app_nil_r i); apply nb_int; [exact Hi|constructor]|].
    rewrite E. pose proof (parse_exp k i [] [] _ _ X1 Hi (or_introl (conj eq_refl eq_refl))) as [_ P].
    rewrite !app_nil_r in P. rewrite P, Ez, decimal_val. reflexivity.
  - right. eexists. split; [reflexivity|].
    destruct (py_float_signed sg z (i ++ x) Hs) as [k [E Ez]]; [apply nb_int; [exact Hi|exact (exp_value_opt _ _ Hx)]|].
    rewrite E. pose proof (parse_exp k i [] [] _ _ Hx Hi (or_introl (conj eq_refl eq_refl))) as [P _].
    cbn [app List.length] in P. rewrite app_nil_r in P. rewrite P, Ez, decimal_val. f_equal. f_equal. lia.
  - right. eexists. split; [reflexivity|].
    destruct (py_float_signed sg z (i ++ "."%char :: f) Hs) as [k [E Ez]].
    { rewrite <- (app_nil_r f). apply nb_both; [exact Hi|exact Hf|constructor]. }
    rewrite E. pose proof (parse_exp k i f _ _ _ X1 Hi (or_intror (conj Hf eq_refl))) as [_ P]. rewrite P, Ez, decimal_val. reflexivity.
  - right. eexists. split; [reflexivity|].
    destruct (py_float_signed sg z (i ++ "."%char :: f ++ x) Hs) as [k [E Ez]].
    { apply nb_both; [exact Hi|exact Hf|exact (exp_value_opt _ _ Hx)]. }
    rewrite E. pose proof (parse_exp k i f _ _ _ Hx Hi (or_intror (conj Hf eq_refl))) as [P _]. cbn [app] in P. rewrite P, Ez, decimal_val. reflexivity.
Qed.
Print Assumptions C92_same_number.
Example C92_same_number_case : toml_value (lit "-12.50e3") = Some (Ok (TFloat (FDec (-1250) 1), [])) /\ py_float (lit "-12.50e3") = Ok (FDec (-1250) 1).
Proof. split; vm_compute; reflexivity. Qed.

(** Every number text that cleaning leaves unquoted (without underscores) either loads or is one of the rejected forms ... *)
Theorem C92_number_forms : forall sg u, sign_opt sg -> special u \/ number u ->
  (exists v, ini_value (sg ++ u) v) \/ rejected_number (sg ++ u).
Proof.
  intros sg u Hs Hu. destruct (sign_valued sg Hs) as [z Hz]. destruct Hu as [Hu|Hu].
  - destruct (list_eq_dec ascii_dec u (lit "inf")) as [->|N1]; [left; eexists; exact (iv_inf sg z Hz)|].
    destruct (list_eq_dec ascii_dec u (lit "nan")) as [->|N2]; [left; eexists; exact (iv_nan sg z Hz)|].
    right. apply rn_special; assumption.
  - assert (X : forall x, exponent_opt x -> x = [] \/ exists e, exp_value x e).
    { intros x Hx. destruct Hx as [|e sg' d He Hs' Hd]; [left; reflexivity|]. right. destruct (sign_valued sg' Hs') as [z' Hz'].
      eexists. exact (ev e sg' z' d He Hz' Hd). }
    assert (Z : forall i r, digits i -> u = i ++ r -> no_leading_zero i \/ rejected_number (sg ++ u)).
    { intros i r Hi E. destruct (zero_or_not i Hi) as [H|[d [w [Ei Hd]]]]; [left; exact H|]. right. subst i u. cbn [app] in *.
      apply rn_zero; [exact Hs|apply is_digit_spec; exact Hd|exact Hu]. }
    destruct Hu as [i x Hi Hx|i x Hi Hx|i f x Hi Hf Hx|f x Hf Hx].
    + destruct (Z i x Hi eq_refl) as [H|H]; [|right; exact H]. left. destruct (X x Hx) as [->|[e He]].
      * rewrite app_nil_r. eexists. apply iv_number. exact (nu_int sg z i Hz H).
      * eexists. apply iv_number. exact (nu_exp sg z i x e Hz H He).
    + right. apply rn_point; assumption.
    + destruct (Z i _ Hi eq_refl) as [H|H]; [|right; exact H]. left. destruct (X x Hx) as [->|[e He]].
      * rewrite app_nil_r. eexists. apply iv_number. exact (nu_frac sg z i f Hz H Hf).
      * eexists. apply iv_number. exact (nu_both sg z i f x e Hz H Hf He).
    + right. apply rn_frac; assumption.
Qed.
Print Assumptions C92_number_forms.
(** ... and one rejected form anywhere makes the load fail, although cleaning succeeds. *)
Theorem C92_rejected : forall f p text t pre ln post d, f p = Some text -> substituted text t -> lines_of t (pre ++ ln :: post) ->
  ini_doc pre d -> rejected_entry ln -> Forall (fun l => forall l', undollared l l' -> ~ offending l') post ->
  meter_conf f p = Some (Raise ValueError) /\ exists o, snd (clean_ini_to_toml f p) = Ok o.
Proof.
  intros f p text t pre ln post d Ef Hs Hl [a [b [-> [Ha Hb]]]] Hr Hp.
  destruct (entries_stm a _ Ha) as [s1 [F1 S1]]. destruct (sections_sec b _ Hb) as [s2 [F2 S2]].
  destruct (rejected_reads ln Hr) as [R1 R2]. split.
  - exact (load_raises f p text t _ ln post _ Ef Hs Hl (Forall2_app F1 F2) R1 R2 Hp).
  - pose proof (substituted_unique _ _ _ (clean_subs_spec text) Hs) as Et. apply lines_of_split in Hl.
    assert (C : exists outs, Forall2 (fun ln o => clean_line ln = Ok o) ((a ++ b) ++ ln :: post) outs).
    { assert (G : forall l, Forall (fun x => exists o, clean_line x = Ok o) l -> exists outs, Forall2 (fun ln o => clean_line ln = Ok o) l outs).
      { induction 1 as [|x l [o E] _ [outs F]]; [exists []; constructor|exists (o :: outs); constructor; assumption]. }
      apply G. apply Forall_app. split.
      - pose proof (Forall2_app F1 F2) as F. clear - F. induction F as [|x y l1 l2 [o [E _]] _ IH]; constructor; [exists o; exact E|exact IH].
      - constructor; [exists ln; exact R1|]. eapply Forall_impl; [|exact Hp]. intros l H.
        destruct (clean_line_ok l _ (drop_dollar_spec l) (H _ (drop_dollar_spec l))) as [o [E _]]. exists o. exact E. }
    destruct C as [outs C]. unfold clean_ini_to_toml. rewrite Ef, Et, <- Hl, (clean_loop_ok _ _ C). eexists. reflexivity.
Qed.
Print Assumptions C92_rejected.
Example C92_rejected_case : Forall (fun v => meter_conf (one_file "a.ini" ("x = 1" ++ n ++ "GravCal = " ++ v)) (lit "a.ini") = Some (Raise ValueError))
    ["1."; "-.5"; "007"; "00.5"; "1.e3"; "Inf"; "NaN"; "infinity"]%string /\
  Forall (fun v => exists d, meter_conf (one_file "a.ini" ("x = 1" ++ n ++ "GravCal = " ++ v)) (lit "a.ini") = Some (Ok d))
    ["1"; "-0.5"; "7"; "0.5"; "1e3"; "inf"; "+nan"]%string.
Proof. split; repeat constructor; try (eexists; vm_compute; reflexivity); vm_compute; reflexivity. Qed.

(** So "a cleaned file loads" is false ... *)
Theorem C92_loads_always_refuted : exists f p o, snd (clean_ini_to_toml f p) = Ok o /\ meter_conf f p = Some (Raise ValueError).
Proof. exists (one_file "a.ini" "GravCal = 1."), (lit "a.ini"), (lit "a.toml"). split; vm_compute; reflexivity. Qed.
Print Assumptions C92_loads_always_refuted.
(** ... and a bare text does not always load as itself: a backslash is read as an escape, or makes the load fail, and a double
    slash inside a quoted text is replaced. *)
Theorem C92_text_value_refuted : exists a b c,
  meter_conf (one_file "a.ini" ("dir = " ++ a)) (lit "a.ini") <> Some (Ok (mk_doc [(lit "dir", TStr (lit a))] [])) /\
  (exists d, meter_conf (one_file "a.ini" ("dir = " ++ a)) (lit "a.ini") = Some (Ok d)) /\
  meter_conf (one_file "a.ini" ("dir = " ++ b)) (lit "a.ini") = Some (Raise ValueError) /\
  meter_conf (one_file "a.ini" ("dir = " ++ q ++ c ++ q)) (lit "a.ini") <> Some (Ok (mk_doc [(lit "dir", TStr (lit c))] [])).
Proof.
  exists "C:\new"%string, "C:\data"%string, "http://x"%string. split; [vm_compute; discriminate|]. split; [eexists; vm_compute; reflexivity|].
  split; [vm_compute; reflexivity|vm_compute; discriminate].
Qed.
Print Assumptions C92_text_value_refuted.
Example C92_text_value_case : meter_conf (one_file "a.ini" ("dir = " ++ q ++ "http://x" ++ q)) (lit "a.ini")
  = Some (Ok (mk_doc [(lit "dir", TStr (lit "http:#x"))] [])).
Proof. vm_compute. reflexivity. Qed.

(** No failure other than a missing file, an offending line and an invalid document. *)
Lemma end_of_line_exn s e : end_of_line s = Raise e -> e = ValueError.
Proof. unfold end_of_line. destruct (skip_ws s) as [|c t]; [discriminate|]. destruct (Ascii.eqb c "#"); [destruct (existsb is_ctrl t)|]; congruence. Qed.
Lemma toml_key_exn s e : toml_key s = Some (Raise e) -> e = ValueError.
Proof.
  unfold toml_key. destruct (span is_bare s) as [[|k0 k] r].
  - destruct s as [|c t]; [congruence|]. destruct (_ || _)%bool; congruence.
  - destruct (skip_ws r) as [|c t]; [congruence|]. destruct (Ascii.eqb c "."); congruence.
Qed.
Lemma basic_string_exn_aux m : forall s e, (List.length s <= m)%nat -> basic_string s = Some (Raise e) -> e = ValueError.
Proof.
  induction m as [|m IH]; intros s e L; destruct s as [|c t]; cbn [List.length] in L; try lia; try (cbn; congruence). cbn [basic_string].
  destruct (Ascii.eqb c dquote); [discriminate|]. destruct (Ascii.eqb c "\").
  - destruct t as [|x t']; [congruence|]. cbn [List.length] in L. cbv zeta. set (esc := if Ascii.eqb x "b" then _ else _). destruct esc as [y|].
    + destruct (basic_string t') as [[[a b]|e']|] eqn:E; try congruence. intros H. injection H as ->. apply (IH t'); [lia|exact E].
    + destruct (_ || _)%bool; congruence.
  - destruct (is_ctrl c); [congruence|]. destruct (basic_string t) as [[[a b]|e']|] eqn:E; try congruence. intros H. injection H as ->. apply (IH t); [lia|exact E].
Qed.
Lemma toml_value_exn s e : toml_value s = Some (Raise e) -> e = ValueError.
Proof.
  unfold toml_value. destruct s as [|c t]; [congruence|]. destruct (Ascii.eqb c dquote).
  - destruct (prefixb _ t); [discriminate|]. destruct (basic_string t) as [[[a b]|e']|] eqn:E; try congruence. intros H. injection H as ->. exact (basic_string_exn_aux _ t e (le_n _) E).
  - destruct (_ || _)%bool; [discriminate|]. destruct (prefixb (lit "true") _); [discriminate|]. destruct (prefixb (lit "false") _); [discriminate|].
    destruct (unmodelled_value _); [discriminate|]. destruct (toml_number _) as [[v r]|]; [discriminate|]. destruct (take_sign _) as [neg u].
    destruct (prefixb (lit "inf") u); [discriminate|]. destruct (prefixb (lit "nan") u); congruence.
Qed.
Lemma toml_line_exn s e : toml_line s = Some (Raise e) -> e = ValueError.
Proof.
  unfold toml_line. destruct (skip_ws s) as [|c t]; [discriminate|]. destruct (Ascii.eqb c "#").
  - destruct (end_of_line (c :: t)) as [u|e'] eqn:E; cbn [bind]; [discriminate|]. intros H. injection H as ->. exact (end_of_line_exn _ _ E).
  - destruct (Ascii.eqb c "[").
    + destruct t as [|d t']; [congruence|]. destruct (Ascii.eqb d "["); [discriminate|]. destruct (toml_key _) as [[[k r]|e']|] eqn:E; try discriminate.
      * destruct r as [|x r']; [congruence|]. destruct (Ascii.eqb x "]"); [|congruence]. destruct (end_of_line r') as [u|e'] eqn:E'; cbn [bind]; [discriminate|]. intros H. injection H as ->. exact (end_of_line_exn _ _ E').
      * intros H. injection H as ->. exact (toml_key_exn _ _ E).
    + destruct (toml_key _) as [[[k r]|e']|] eqn:E; try discriminate.
      * destruct r as [|x r']; [congruence|]. destruct (Ascii.eqb x "="); [|congruence]. destruct (toml_value _) as [[[v r'']|e']|] eqn:E1; try discriminate.
        -- destruct (end_of_line r'') as [u|e'] eqn:E'; cbn [bind]; [discriminate|]. intros H. injection H as ->. exact (end_of_line_exn _ _ E').
        -- intros H. injection H as ->. exact (toml_value_exn _ _ E1).
      * intros H. injection H as ->. exact (toml_key_exn _ _ E).
Qed.
Lemma toml_lines_exn ls : forall tp ts e, toml_lines ls tp ts = Some (Raise e) -> e = ValueError.
Proof.
  induction ls as [|ln rest IH]; intros tp ts e; cbn [toml_lines]; [discriminate|]. destruct (toml_line ln) as [[[|k|k v]|e']|] eqn:E; try discriminate.
  - apply IH.
  - destruct (assoc k tp), (assoc k ts); try congruence. apply IH.
  - destruct ts as [|[n0 t] ts']; [destruct (assoc k tp)|destruct (assoc k t)]; try congruence; apply IH.
  - intros H. injection H as ->. exact (toml_line_exn _ _ E).
Qed.
Theorem C92_exceptions : forall f p e, meter_conf f p = Some (Raise e) ->
  (e = FileNotFoundError /\ f p = None) \/ (e = IndexError /\ exists text t ls ln ln', f p = Some text /\ substituted text t /\ lines_of t ls /\ In ln ls /\ undollared ln ln' /\ offending ln') \/
  (e = ValueError /\ exists o, snd (clean_ini_to_toml f p) = Ok o).
Proof.
  intros f p e. unfold meter_conf. destruct (clean_ini_to_toml f p) as [f' r] eqn:C. unfold clean_ini_to_toml in C. destruct (f p) as [text|] eqn:Ef.
  - destruct (first_offending (split [nl] (clean_subs text))) as [[outs [I1 I2]]|[pre [ln [post [outs [Es [I1 [I2 [[l1 [I3 I3']] I4]]]]]]]]].
    + rewrite (clean_loop_ok _ _ I1) in C. injection C as <- <-. unfold fs_write. rewrite (proj2 (str_eqb_eq _ _) eq_refl). intros H. right. right. split; [exact (toml_lines_exn _ _ _ _ H)|]. eexists. reflexivity.
    + rewrite Es in C. rewrite (clean_loop_raise _ _ _ _ _ I1 I4) in C. injection C as <- <-. intros H. right. left. split; [congruence|]. exists text, (clean_subs text), (split [nl] (clean_subs text)), ln, l1.
      split; [reflexivity|]. split; [apply clean_subs_spec|]. split; [apply lines_of_split; reflexivity|]. split; [rewrite Es; apply in_or_app; right; left; reflexivity|]. split; assumption.
  - injection C as <- <-. intros H. left. split; congruence.
Qed.
Print Assumptions C92_exceptions.
Example C92_exceptions_case : meter_conf (one_file "a.ini" "[") (lit "a.ini") = Some (Raise ValueError) /\ meter_conf (one_file "a.ini" "oops") (lit "a.ini") = Some (Raise IndexError) /\
  meter_conf (one_file "a.ini" "") (lit "b.ini") = Some (Raise FileNotFoundError).
Proof. repeat split; vm_compute; reflexivity. Qed.
