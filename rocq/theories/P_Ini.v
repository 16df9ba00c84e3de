(** Properties C08-C12: clean_ini_to_toml (shipgrav/utils.py 108-175). *)
From Coq Require Import ZArith Ascii String Bool Lia List.
From Verif Require Import M_Py L_Base M_Str S_Str L_Str M_Ini S_Ini L_Ini.
Import ListNotations.

(** C08: the call on x.ini returns x.toml; whatever the path, the input file is untouched, as is
    every other file except the output. *)
Theorem C08_output_path : forall f x f' p,
  clean_ini_to_toml f (x ++ lit ".ini") = (f', Ok p) -> p = x ++ lit ".toml".
Proof.
  intros f x f' p. unfold clean_ini_to_toml. destruct (f _); [|discriminate].
  rewrite toml_path_ini. destruct (clean_loop _) as [w [u|e]]; intros H; congruence.
Qed.
Print Assumptions C08_output_path.

(** For any other path: trailing letters i and n are removed, whatever they are. *)
Theorem C08_any_path : forall f a b f' p, Forall (fun c => c = "i"%char \/ c = "n"%char) b ->
  (forall r c, a = r ++ [c] -> c <> "i"%char /\ c <> "n"%char) ->
  clean_ini_to_toml f (a ++ b) = (f', Ok p) -> p = a ++ lit "toml".
Proof.
  intros f a b f' p Hb Ha. unfold clean_ini_to_toml. destruct (f _); [|discriminate].
  assert (E : toml_path (a ++ b) = a ++ lit "toml").
  { unfold toml_path. rewrite rstrip_by_app.
    - rewrite rstrip_by_id; [reflexivity|]. intros c r ->. destruct (Ha r c eq_refl) as [H1 H2].
      destruct (in_set (lit "ini") c) eqn:Ec; [|reflexivity].
      apply in_set_ini in Ec. destruct Ec; contradiction.
    - eapply Forall_impl; [|exact Hb]. intros c Hc. apply in_set_ini. exact Hc. }
  rewrite E. destruct (clean_loop _) as [w [u|e]]; intros H; congruence.
Qed.
Print Assumptions C08_any_path.
Example C08_any_path_case : toml_path (lit "configini") = lit "configtoml" /\ toml_path (lit "bin") = lit "btoml".
Proof. vm_compute. split; reflexivity. Qed.

Theorem C08_input_untouched : forall f p f' r, clean_ini_to_toml f p = (f', r) ->
  f' p = f p /\ exists o, o <> p /\ (forall q, q <> o -> f' q = f q) /\ (forall p', r = Ok p' -> p' = o).
Proof.
  intros f p f' r. unfold clean_ini_to_toml. destruct (f p) as [text|] eqn:Ef.
  - destruct (clean_loop _) as [w r']. intros H. injection H as <- <-.
    assert (Ho : forall q, q <> toml_path p -> fs_write f (toml_path p) w q = f q).
    { intros q Hq. unfold fs_write. rewrite (proj2 (str_eqb_neq _ _) Hq). reflexivity. }
    split.
    + rewrite Ho; [exact Ef|]. intros E. symmetry in E. exact (toml_path_neq p E).
    + exists (toml_path p). split; [apply toml_path_neq|]. split; [exact Ho|].
      intros p'. destruct r'; congruence.
  - intros H. injection H as <- <-. split; [exact Ef|].
    exists ("x"%char :: p). split; [|split; [reflexivity|discriminate]].
    intros E. apply (f_equal (@List.length _)) in E. simpl in E. lia.
Qed.
Print Assumptions C08_input_untouched.

(** A file system with one file. *)
Definition one_file (p c : string) : fs := fun q => if str_eqb q (lit p) then Some (lit c) else None.
Definition n : string := String nl EmptyString.
Definition show (x : fs * res str) : option string * option string :=
  match snd x with
  | Ok o => (Some (string_of_list_ascii o), match fst x o with Some c => Some (string_of_list_ascii c) | None => None end)
  | Raise _ => (None, None)
  end.

Example C08_case : show (clean_ini_to_toml (one_file "mini.ini" ("[a]" ++ n ++ "b=3")) (lit "mini.ini"))
  = (Some "mini.toml", Some ("[a]" ++ n ++ "b=3" ++ n))%string.
Proof. vm_compute. reflexivity. Qed.

(** C09: on success the output consists of one line per line of the substituted text, each
    rewritten by the independent rule. *)
Theorem C09_line_by_line : forall f p text t ls, f p = Some text -> substituted text t -> lines_of t ls ->
  forall f' o, clean_ini_to_toml f p = (f', Ok o) ->
  exists outs, f' o = Some (concat (map (fun x => x ++ [nl]) outs)) /\
    Forall2 (fun ln out => exists ln', undollared ln ln' /\ rewritten ln' out) ls outs.
Proof.
  intros f p text t ls Ef Ht Hl f' o. unfold clean_ini_to_toml. rewrite Ef.
  rewrite (substituted_unique _ _ _ (clean_subs_spec text) Ht). rewrite <- (proj1 (lines_of_split t ls) Hl).
  destruct (first_offending ls) as [[outs [I1 I2]]|[pre [ln [post [outs [-> [I1 [I2 [I3 I4]]]]]]]]].
  - rewrite (clean_loop_ok _ _ I1). intros H. injection H as <- <-. exists outs. split; [|exact I2].
    unfold fs_write. rewrite (proj2 (str_eqb_eq _ _) eq_refl). reflexivity.
  - rewrite (clean_loop_raise _ _ _ _ _ I1 I4). discriminate.
Qed.
Print Assumptions C09_line_by_line.

(** It succeeds exactly when the file exists and no line is offending. *)
Theorem C09_succeeds_iff : forall f p text t ls, f p = Some text -> substituted text t -> lines_of t ls ->
  ((exists o, snd (clean_ini_to_toml f p) = Ok o) <->
   Forall (fun ln => forall ln', undollared ln ln' -> ~ offending ln') ls).
Proof.
  intros f p text t ls Ef Ht Hl. unfold clean_ini_to_toml. rewrite Ef.
  rewrite (substituted_unique _ _ _ (clean_subs_spec text) Ht). rewrite <- (proj1 (lines_of_split t ls) Hl).
  destruct (first_offending ls) as [[outs [I1 I2]]|[pre [ln [post [outs [-> [I1 [I2 [[l1 [I3 I3']] I4]]]]]]]]].
  - rewrite (clean_loop_ok _ _ I1). cbn [snd]. split; [intros _|intros _; eexists; reflexivity].
    clear - I1. induction I1 as [|ln o ls outs E I1 IH]; constructor; [|exact IH].
    intros l1 Hu Ho. rewrite (clean_line_raises ln l1 Hu Ho) in E. discriminate.
  - rewrite (clean_loop_raise _ _ _ _ _ I1 I4). cbn [snd]. split; [intros [o H]; discriminate|].
    intros H. exfalso. rewrite Forall_app in H. destruct H as [_ H]. inversion H as [|? ? H1 ?]; subst.
    exact (H1 l1 I3 I3').
Qed.
Print Assumptions C09_succeeds_iff.

Example C09_case : show (clean_ini_to_toml
    (one_file "a.ini" ("// top" ++ n ++ "[s]" ++ n ++ "ok = TRUE" ++ n ++ "x = 1_0.5e3" ++ n ++ "name = ""a b""" ++ n ++ "$GPGGA = yes "))
    (lit "a.ini"))
  = (Some "a.toml", Some ("# top" ++ n ++ "[s]" ++ n ++ "ok = true" ++ n ++ "x = 1_0.5e3" ++ n ++ "name = ""a b""" ++ n ++ "GPGGA = ""yes""" ++ n))%string.
Proof. vm_compute. reflexivity. Qed.

(** C10: bare strings are quoted, and the rule is stable on its output. *)
Theorem C10_bare_string_quoted : forall k v w,
  ~ plain_line (k ++ "="%char :: v) -> (forall r, k ++ "="%char :: v <> "$"%char :: r) ->
  ~ In "="%char k -> ~ In "="%char v -> ~ In "#"%char v -> trimmed v w -> ~ toml_ready w ->
  clean_line (k ++ "="%char :: v) = Ok (k ++ lit "= """ ++ w ++ lit """") /\
  clean_line (k ++ lit "= """ ++ w ++ lit """") = Ok (k ++ lit "= """ ++ w ++ lit """").
Proof.
  intros k v w Hp Hd Hk Hv Hh Ht Hr. split.
  - assert (Hu : undollared (k ++ "="%char :: v) (k ++ "="%char :: v)) by (constructor; exact Hd).
    assert (Hn : ~ offending (k ++ "="%char :: v)).
    { intros [_ H]. apply H. apply in_or_app. right. left. reflexivity. }
    destruct (clean_line_ok _ _ Hu Hn) as [out [E Hrw]]. rewrite E. f_equal.
    apply (rewritten_unique _ _ _ Hrw).
    apply (rw_quoted _ k w); auto. exists v, v, v. repeat split; auto.
  - set (l := k ++ lit "= """ ++ w ++ lit """").
    assert (El : l = k ++ "="%char :: (" "%char :: dquote :: w ++ [dquote])) by reflexivity.
    assert (Hu : undollared l l).
    { constructor. intros r E. destruct k as [|c k']; [discriminate|]. cbn in E. injection E as -> _.
      exact (Hd (k' ++ "="%char :: v) eq_refl). }
    assert (Hin : ~ offending l).
    { intros [_ H]. apply H. rewrite El. apply in_or_app. right. left. reflexivity. }
    destruct (clean_line_ok _ _ Hu Hin) as [out [E Hrw]]. rewrite E. f_equal.
    apply (rewritten_unique _ _ _ Hrw).
    assert (Hw : forall c, c <> " "%char -> ~ In c v -> c <> dquote -> ~ In c (" "%char :: dquote :: w ++ [dquote])).
    { intros c Hc1 Hc2 Hc3 [H|[H|H]]; [congruence|congruence|]. apply in_app_or in H. destruct H as [H|[H|[]]].
      - apply Hc2. destruct Ht as [a [b [-> _]]]. apply in_or_app. right. apply in_or_app. left. exact H.
      - congruence. }
    apply (rw_ready _ k (dquote :: w ++ [dquote])).
    + intros [H|[r [H|H]]].
      * rewrite El in H. apply app_eq_nil in H. destruct H. discriminate.
      * destruct k as [|c k']; [discriminate|]. cbn in H. injection H as -> _. apply Hp. right.
        exists (k' ++ "="%char :: v). left. reflexivity.
      * destruct k as [|c k']; [discriminate|]. cbn in H. injection H as -> _. apply Hp. right.
        exists (k' ++ "="%char :: v). right. reflexivity.
    + exists (" "%char :: dquote :: w ++ [dquote]), (" "%char :: dquote :: w ++ [dquote]),
        (" "%char :: dquote :: w ++ [dquote]).
      split; [exact El|]. split; [exact Hk|].
      split; [split; [apply Hw; [discriminate|exact Hv|discriminate]|left; reflexivity]|].
      split; [split; [apply Hw; [discriminate|exact Hh|discriminate]|left; reflexivity]|].
      exists [" "%char], []. split; [rewrite app_nil_r; reflexivity|].
      split; [repeat constructor; unfold space; cbn; tauto|]. split; [constructor|].
      split.
      * intros c r H. injection H as <- _. unfold space. cbn. intros H. decompose [or] H; try discriminate; tauto.
      * intros c r H. change (dquote :: w ++ [dquote]) with ((dquote :: w) ++ [dquote]) in H.
        apply app_inj_tail in H. destruct H as [_ <-].
        unfold space. cbn. intros H. decompose [or] H; try discriminate; tauto.
    + right. right. left. eexists. reflexivity.
Qed.
Print Assumptions C10_bare_string_quoted.

Example C10_case : clean_line (lit "serial =  S-12 b ") = Ok (lit "serial = ""S-12 b""").
Proof. vm_compute. reflexivity. Qed.
Example C10_hyps : let k := lit "serial " in let v := lit "  S-12 b " in
  ~ plain_line (k ++ "="%char :: v) /\ ~ In "="%char v /\ trimmed v (lit "S-12 b") /\ ~ toml_ready (lit "S-12 b").
Proof.
  cbv zeta. split; [|split; [|split]].
  - intros [H|[r [H|H]]]; discriminate.
  - cbn. intros H. decompose [or] H; try discriminate; tauto.
  - change (lit "S-12 b") with (strip (lit "  S-12 b ")). apply strip_trimmed.
  - intros H. apply toml_ready_dec in H. destruct H as [H|[H|[x H]]]; vm_compute in H; discriminate.
Qed.

(** C11, refuted: the claim "a trailing comment on a bare string survives" fails; in fact it never
    survives, nor does anything after a second '='. *)
Theorem C11_comment_always_dropped : forall k v w c,
  ~ plain_line (k ++ "="%char :: v) -> (forall r, k ++ "="%char :: v <> "$"%char :: r) ->
  ~ In "="%char k -> ~ In "="%char v -> ~ In "#"%char v -> trimmed v w -> ~ toml_ready w ->
  forall d, d = "#"%char \/ d = "="%char ->
  clean_line (k ++ "="%char :: v ++ d :: c) = clean_line (k ++ "="%char :: v).
Proof.
  intros k v w c Hp Hd Hk Hv Hh Ht Hr d Hdd.
  destruct (C10_bare_string_quoted k v w Hp Hd Hk Hv Hh Ht Hr) as [-> _].
  set (l := k ++ "="%char :: v ++ d :: c).
  assert (Hu : undollared l l).
  { constructor. intros r E. destruct k as [|x k']; [discriminate|]. cbn in E. injection E as -> _.
    exact (Hd (k' ++ "="%char :: v) eq_refl). }
  assert (Hin : ~ offending l).
  { intros [_ H]. apply H. apply in_or_app. right. left. reflexivity. }
  destruct (clean_line_ok _ _ Hu Hin) as [out [E Hrw]]. rewrite E. f_equal.
  apply (rewritten_unique _ _ _ Hrw). apply (rw_quoted _ k w).
  - intros [H|[r [H|H]]].
    + unfold l in H. apply app_eq_nil in H. destruct H. discriminate.
    + destruct k as [|x k']; [discriminate|]. cbn in H. injection H as -> _. apply Hp. right.
      exists (k' ++ "="%char :: v). left. reflexivity.
    + destruct k as [|x k']; [discriminate|]. cbn in H. injection H as -> _. apply Hp. right.
      exists (k' ++ "="%char :: v). right. reflexivity.
  - destruct Hdd as [-> | ->].
    + destruct (upto_split "=" (v ++ "#"%char :: c)) as [v0 [_ Hv0]].
      exists (v ++ "#"%char :: c), v0, v. split; [reflexivity|]. split; [exact Hk|]. split; [exact Hv0|].
      split; [|exact Ht]. split; [exact Hh|].
      destruct Hv0 as [Hv0 [<-|[r0 E0]]]; [right; exists c; reflexivity|].
      (* v0 is a prefix of v ++ # :: c ending before an '=', which is not in v *)
      right. clear - Hv E0 Hv0.
      assert (Hlen : (List.length v < List.length v0)%nat).
      { destruct (Nat.lt_ge_cases (List.length v) (List.length v0)) as [H|H]; [exact H|exfalso].
        destruct (Nat.eq_dec (List.length v0) (List.length v)) as [He|He].
        - assert (Hn : nth_error (v ++ "#"%char :: c) (List.length v0) = Some "#"%char)
            by (rewrite nth_error_app2, He, Nat.sub_diag by lia; reflexivity).
          rewrite E0, nth_error_app2, Nat.sub_diag in Hn by lia. discriminate.
        - assert (Hn : nth_error (v ++ "#"%char :: c) (List.length v0) = Some "="%char)
            by (rewrite E0, nth_error_app2, Nat.sub_diag by lia; reflexivity).
          rewrite nth_error_app1 in Hn by lia. apply Hv. eapply nth_error_In. exact Hn. }
      exists (skipn (S (List.length v)) v0).
      rewrite <- (firstn_skipn (List.length v) v0) at 1. f_equal.
      * apply (f_equal (firstn (List.length v))) in E0. rewrite !firstn_app, Nat.sub_diag in E0.
        rewrite firstn_all, firstn_O, app_nil_r in E0.
        replace (List.length v - List.length v0)%nat with 0%nat in E0 by lia.
        rewrite firstn_O, app_nil_r in E0. symmetry. exact E0.
      * apply (f_equal (fun z => nth_error z (List.length v))) in E0.
        rewrite nth_error_app2, Nat.sub_diag in E0 by lia. rewrite nth_error_app1 in E0 by lia.
        clear - E0. revert v0 E0. induction v as [|x v IH]; intros [|y v0] E0; try discriminate.
        -- cbn in E0. injection E0 as <-. reflexivity.
        -- cbn [List.length] in *. cbn [nth_error] in E0. rewrite skipn_cons. cbn [skipn] in *. apply IH. exact E0.
    + exists (v ++ "="%char :: c), v, v. split; [reflexivity|]. split; [exact Hk|].
      split; [split; [exact Hv|right; exists c; reflexivity]|].
      split; [split; [exact Hh|left; reflexivity]|exact Ht].
  - exact Hr.
Qed.
Print Assumptions C11_comment_always_dropped.

Theorem C11_comments_kept_refuted : exists k v c out,
  clean_line (k ++ "="%char :: v ++ "#"%char :: c) = Ok out /\ c <> [] /\ ~ occurs c out.
Proof.
  exists (lit "name"), (lit " Thompson "), (lit " ship"), (lit "name= ""Thompson""").
  split; [vm_compute; reflexivity|]. split; [discriminate|].
  apply containsb_false. reflexivity.
Qed.
Print Assumptions C11_comments_kept_refuted.

Example C11_url_case : clean_line (lit "url = http:x?a=b") = Ok (lit "url = ""http:x?a""").
Proof. vm_compute. reflexivity. Qed.

(** C12: at the first offending line the call raises IndexError and the output file holds exactly
    the rewritten lines before it. *)
Theorem C12_failure_point : forall f p text t pre ln post,
  f p = Some text -> substituted text t -> lines_of t (pre ++ ln :: post) ->
  Forall (fun l => forall l', undollared l l' -> ~ offending l') pre ->
  (forall l', undollared ln l' -> offending l') ->
  exists f' o outs, clean_ini_to_toml f p = (f', Raise IndexError) /\
    o = toml_path p /\ o <> p /\
    f' o = Some (concat (map (fun x => x ++ [nl]) outs)) /\
    Forall2 (fun l out => exists l', undollared l l' /\ rewritten l' out) pre outs.
Proof.
  intros f p text t pre ln post Ef Ht Hl Hpre Hoff. unfold clean_ini_to_toml. rewrite Ef.
  rewrite (substituted_unique _ _ _ (clean_subs_spec text) Ht). rewrite <- (proj1 (lines_of_split t _) Hl).
  assert (H : exists outs, Forall2 (fun l o => clean_line l = Ok o) pre outs /\
     Forall2 (fun l o => exists l1, undollared l l1 /\ rewritten l1 o) pre outs).
  { clear - Hpre. induction Hpre as [|l pre H Hpre [outs [I1 I2]]].
    - exists []. split; constructor.
    - pose proof (drop_dollar_spec l) as Hu.
      destruct (clean_line_ok l _ Hu (H _ Hu)) as [o [E Hr]].
      exists (o :: outs). split; constructor; auto. eexists. split; eassumption. }
  destruct H as [outs [I1 I2]].
  pose proof (drop_dollar_spec ln) as Hu.
  rewrite (clean_loop_raise _ _ _ _ _ I1 (clean_line_raises ln _ Hu (Hoff _ Hu))).
  eexists _, _, outs. split; [reflexivity|]. split; [reflexivity|]. split; [apply toml_path_neq|].
  split; [|exact I2]. unfold fs_write. rewrite (proj2 (str_eqb_eq _ _) eq_refl). reflexivity.
Qed.
Print Assumptions C12_failure_point.

Example C12_case : let r := clean_ini_to_toml (one_file "a.ini" ("x = y" ++ n ++ "oops" ++ n ++ "z = 1")) (lit "a.ini") in
  snd r = Raise IndexError /\ fst r (lit "a.toml") = Some (lit ("x = ""y""" ++ n)).
Proof. vm_compute. split; reflexivity. Qed.
