(** Proofs for the ini to toml rewriting. *)
From Coq Require Import ZArith Ascii String Bool Lia List.
From Verif Require Import M_Py L_Base M_Str S_Str L_Str M_Ini S_Ini.
Import ListNotations.

Local Notation len := List.length.

(** ** paths *)
Lemma in_set_ini c : in_set (lit "ini") c = true <-> c = "i"%char \/ c = "n"%char.
Proof.
  unfold in_set. cbn. rewrite !orb_true_iff, !Ascii.eqb_eq.
  split; [intros [H|[H|[H|H]]]|intros [H|H]]; auto; discriminate.
Qed.

Lemma toml_path_ini x : toml_path (x ++ lit ".ini") = x ++ lit ".toml".
Proof.
  unfold toml_path. change (lit ".ini") with ([ "."%char ] ++ lit "ini").
  rewrite app_assoc, rstrip_by_app.
  - rewrite rstrip_by_id.
    + rewrite <- app_assoc. reflexivity.
    + intros c r E. apply app_inj_tail in E. destruct E as [_ <-]. reflexivity.
  - repeat constructor.
Qed.

Lemma toml_path_neq p : toml_path p <> p.
Proof.
  intros E. unfold toml_path in E.
  assert (Hl : rstrip_by (in_set (lit "ini")) p = p).
  { apply rstrip_by_id. intros c r Ep. subst p.
    change (lit "toml") with (lit "tom" ++ ["l"%char]) in E. rewrite app_assoc in E.
    apply app_inj_tail in E. destruct E as [_ <-]. reflexivity. }
  rewrite Hl in E. apply (f_equal (@len ascii)) in E. rewrite app_length in E. simpl in E. lia.
Qed.

(** ** one line *)
Lemma upto_split c s : exists p, hd [] (split [c] s) = p /\ upto c s p.
Proof.
  exists (hd [] (split [c] s)). split; [reflexivity|].
  destruct (in_dec ascii_dec c s) as [Hin|Hn].
  - destruct (first_occurrence [c] s) as [a [b [E Hf]]]; [apply occurs_char; exact Hin|].
    subst s. rewrite split_first; [|discriminate|exact Hf]. simpl. split.
    + intros H. apply in_split in H. destruct H as [a1 [a2 ->]].
      specialize (Hf a1 (a2 ++ c :: b)). rewrite <- app_assoc in Hf. specialize (Hf eq_refl).
      rewrite app_length in Hf. simpl in Hf. lia.
    + right. exists b. reflexivity.
  - rewrite split_char_none by exact Hn. simpl. split; [exact Hn|]. left. reflexivity.
Qed.

Lemma upto_unique c s p q : upto c s p -> upto c s q -> p = q.
Proof.
  intros [Hp E1] [Hq E2].
  assert (H : forall a, upto c s a -> hd [] (split [c] s) = a).
  { intros a [Ha [->|[r ->]]]; [rewrite split_char_none by exact Ha|rewrite split_char_cons by exact Ha]; reflexivity. }
  rewrite <- (H p), <- (H q); [reflexivity| |]; split; assumption.
Qed.

Lemma plain_line_spec ln :
  prefixb (lit "[") ln || prefixb (lit "#") ln || str_eqb ln [] = true <-> plain_line ln.
Proof.
  unfold plain_line. rewrite !orb_true_iff, !prefixb_spec, str_eqb_eq. split.
  - intros [[[t E]|[t E]]|E]; [right; exists t; left; exact E|right; exists t; right; exact E|left; exact E].
  - intros [E|[r [E|E]]]; [right; exact E|left; left; exists r; exact E|left; right; exists r; exact E].
Qed.

Lemma drop_dollar_spec ln : undollared ln (drop_dollar ln).
Proof.
  unfold drop_dollar. destruct (prefixb (lit "$") ln) eqn:E.
  - apply prefixb_spec in E. destruct E as [t ->]. constructor.
  - rewrite prefixb_false in E. constructor. intros r. apply (E r).
Qed.

Lemma undollared_unique ln a b : undollared ln a -> undollared ln b -> a = b.
Proof.
  intros H H'. destruct H as [ln Hn|r]; inversion H' as [l Hl E1|r' E1]; subst.
  - reflexivity.
  - exfalso. apply (Hn r'). reflexivity.
  - exfalso. apply (Hl r). reflexivity.
  - reflexivity.
Qed.

(** the second part of the line *)
Lemma split_eq_second ln k rest : ln = k ++ "="%char :: rest -> ~ In "="%char k ->
  getr (split (lit "=") ln) 1 = Ok (hd [] (split (lit "=") rest)) /\ hd [] (split (lit "=") ln) = k.
Proof.
  intros -> H. change (lit "=") with ["="%char]. rewrite split_char_cons by exact H.
  split; [|reflexivity]. pose proof (split_nonnil ["="%char] rest) as Hn.
  destruct (split ["="%char] rest); [congruence|reflexivity].
Qed.

Lemma value_and_comment_spec v0 : exists v1, upto "#" v0 v1 /\ value_and_comment v0 = (strip v1, []).
Proof.
  unfold value_and_comment. destruct (upto_split "#" v0) as [v1 [E Hu]]. exists v1. split; [exact Hu|].
  change (lit "#") with ["#"%char].
  destruct (containsb ["#"%char] v0) eqn:Ec.
  - rewrite E. f_equal. rewrite split_char_none by apply Hu. reflexivity.
  - apply containsb_false in Ec. rewrite split_none in E; [|discriminate|exact Ec].
    simpl in E. subst v1. reflexivity.
Qed.

Lemma toml_ready_dec v : toml_ready v <->
  (str_eqb v (lit "true") || str_eqb v (lit "false") = true \/ prefixb [dquote] v = true \/ exists f, py_float v = Ok f).
Proof.
  unfold toml_ready. rewrite orb_true_iff, !str_eqb_eq, prefixb_spec, py_float_spec.
  cbn [app]. tauto.
Qed.

Lemma clean_line_ok ln ln1 : undollared ln ln1 -> ~ offending ln1 ->
  exists out, clean_line ln = Ok out /\ rewritten ln1 out.
Proof.
  intros Hu Ho. rewrite (undollared_unique _ _ _ Hu (drop_dollar_spec ln)) in *. clear Hu ln1.
  unfold clean_line. set (l := drop_dollar ln) in *.
  destruct (prefixb (lit "[") l || prefixb (lit "#") l || str_eqb l []) eqn:Ep.
  { exists l. split; [reflexivity|]. constructor. apply plain_line_spec. exact Ep. }
  assert (Hp : ~ plain_line l) by (intros H; apply plain_line_spec in H; congruence).
  assert (Hin : In "="%char l).
  { destruct (in_dec ascii_dec "="%char l) as [H|H]; [exact H|]. exfalso. apply Ho. split; assumption. }
  destruct (first_occurrence ["="%char] l) as [k [rest [El Hf]]]; [apply occurs_char; exact Hin|].
  assert (Hk : ~ In "="%char k).
  { intros H. apply in_split in H. destruct H as [a1 [a2 ->]].
    specialize (Hf a1 (a2 ++ ["="%char] ++ rest)). rewrite El in Hf. rewrite <- app_assoc in Hf.
    specialize (Hf eq_refl). rewrite app_length in Hf. simpl in Hf. lia. }
  destruct (split_eq_second l k rest El Hk) as [E1 E2]. rewrite E1. cbn [bind].
  destruct (upto_split "=" rest) as [v0 [E0 Hv0]]. change (lit "=") with ["="%char] in *. rewrite E0.
  destruct (value_and_comment_spec v0) as [v1 [Hv1 Ev]]. rewrite Ev.
  set (v := strip v1). assert (Hkv : key_value l k v).
  { exists rest, v0, v1. split; [exact El|]. split; [exact Hk|]. split; [exact Hv0|]. split; [exact Hv1|].
    apply strip_trimmed. }
  destruct (str_eqb v (lit "true") || str_eqb v (lit "false")) eqn:Eb.
  { exists l. split; [reflexivity|]. apply (rw_ready l k v); auto. apply toml_ready_dec. left. exact Eb. }
  destruct (prefixb [dquote] v) eqn:Eq.
  { exists l. split; [reflexivity|]. apply (rw_ready l k v); auto. apply toml_ready_dec. right. left. exact Eq. }
  destruct (py_float v) as [fv|e] eqn:Ef.
  { exists l. split; [reflexivity|]. apply (rw_ready l k v); auto. apply toml_ready_dec. right. right. exists fv. exact Ef. }
  rewrite E2. cbn [str_eqb]. eexists. split; [reflexivity|].
  cbn [join]. change (dquote :: v ++ [dquote]) with ([dquote] ++ v ++ [dquote]).
  apply rw_quoted; auto. intros H. apply toml_ready_dec in H. destruct H as [H|[H|[f H]]]; congruence.
Qed.

Lemma clean_line_raises ln ln1 : undollared ln ln1 -> offending ln1 -> clean_line ln = Raise IndexError.
Proof.
  intros Hu [Hp Hn]. rewrite (undollared_unique _ _ _ Hu (drop_dollar_spec ln)) in *. clear Hu ln1.
  unfold clean_line. set (l := drop_dollar ln) in *.
  destruct (prefixb (lit "[") l || prefixb (lit "#") l || str_eqb l []) eqn:Ep.
  { exfalso. apply Hp. apply plain_line_spec. exact Ep. }
  change (lit "=") with ["="%char]. rewrite split_char_none by exact Hn. reflexivity.
Qed.

Lemma offending_dec ln : offending ln \/ ~ offending ln.
Proof.
  unfold offending.
  destruct (prefixb (lit "[") ln || prefixb (lit "#") ln || str_eqb ln []) eqn:Ep.
  - right. intros [H _]. apply H. apply plain_line_spec. exact Ep.
  - destruct (in_dec ascii_dec "="%char ln); [right; tauto|]. left. split; [|assumption].
    intros H. apply plain_line_spec in H. congruence.
Qed.

Lemma key_value_unique ln k v k' v' : key_value ln k v -> key_value ln k' v' -> k = k' /\ v = v'.
Proof.
  intros [r [v0 [v1 [E [Hk [H0 [H1 Ht]]]]]]] [r' [v0' [v1' [E' [Hk' [H0' [H1' Ht']]]]]]].
  assert (Ek : k = k').
  { apply (upto_unique "=" ln); split; auto; right; eexists; eassumption. }
  subst k'. split; [reflexivity|].
  rewrite E in E'. apply app_inv_head in E'. injection E' as <-.
  rewrite (upto_unique _ _ _ _ H0' H0) in H1'. rewrite (upto_unique _ _ _ _ H1' H1) in Ht'.
  apply trimmed_strip in Ht. apply trimmed_strip in Ht'. congruence.
Qed.

Lemma rewritten_unique ln a b : rewritten ln a -> rewritten ln b -> a = b.
Proof.
  intros H H'. destruct H as [ln Hp|ln k v Hp Hk Hr|ln k v Hp Hk Hr];
    inversion H' as [l Hp'|l k' v' Hp' Hk' Hr'|l k' v' Hp' Hk' Hr']; subst; try reflexivity; try contradiction.
  - exfalso. destruct (key_value_unique _ _ _ _ _ Hk Hk') as [-> ->]. contradiction.
  - exfalso. destruct (key_value_unique _ _ _ _ _ Hk Hk') as [-> ->]. contradiction.
  - destruct (key_value_unique _ _ _ _ _ Hk Hk') as [-> ->]. reflexivity.
Qed.

(** ** the loop *)
Definition written (outs : list str) : str := concat (map (fun o => o ++ [nl]) outs).

Lemma clean_loop_ok lines outs :
  Forall2 (fun ln o => clean_line ln = Ok o) lines outs -> clean_loop lines = (written outs, Ok tt).
Proof.
  induction 1 as [|ln o lines outs E H IH]; [reflexivity|]. cbn [clean_loop]. rewrite E, IH.
  unfold written. cbn [map concat]. rewrite <- app_assoc. reflexivity.
Qed.

Lemma clean_loop_raise pre outs ln e post :
  Forall2 (fun ln o => clean_line ln = Ok o) pre outs -> clean_line ln = Raise e ->
  clean_loop (pre ++ ln :: post) = (written outs, Raise e).
Proof.
  intros H He. induction H as [|l o lines outs E H IH]; cbn [app clean_loop].
  - rewrite He. reflexivity.
  - rewrite E, IH. unfold written. cbn [map concat]. rewrite <- app_assoc. reflexivity.
Qed.

Lemma clean_subs_spec text : substituted text (clean_subs text).
Proof.
  unfold clean_subs. eexists _, _, _.
  split; [apply sub_lit_Subst; discriminate|]. split; [apply sub_lit_Subst; discriminate|].
  split; apply sub_lit_Subst; discriminate.
Qed.

Lemma substituted_unique text a b : substituted text a -> substituted text b -> a = b.
Proof.
  intros [a1 [a2 [a3 [A1 [A2 [A3 A4]]]]]] [b1 [b2 [b3 [B1 [B2 [B3 B4]]]]]].
  assert (E1 : a1 = b1) by (eapply Subst_unique; [|exact A1|exact B1]; discriminate). subst b1.
  assert (E2 : a2 = b2) by (eapply Subst_unique; [|exact A2|exact B2]; discriminate). subst b2.
  assert (E3 : a3 = b3) by (eapply Subst_unique; [|exact A3|exact B3]; discriminate). subst b3.
  eapply Subst_unique; [|exact A4|exact B4]; discriminate.
Qed.

Lemma lines_of_split t ls : lines_of t ls <-> ls = split [nl] t.
Proof.
  split.
  - intros [H1 [-> H3]]. symmetry. apply split_char_join; assumption.
  - intros ->. split; [apply split_nonnil|]. split; [symmetry; apply join_split; discriminate|].
    apply split_char_clean.
Qed.

Lemma first_offending (ls : list str) :
  (exists outs, Forall2 (fun ln o => clean_line ln = Ok o) ls outs /\
     Forall2 (fun ln o => exists l1, undollared ln l1 /\ rewritten l1 o) ls outs) \/
  (exists pre ln post outs, ls = pre ++ ln :: post /\
     Forall2 (fun ln o => clean_line ln = Ok o) pre outs /\
     Forall2 (fun ln o => exists l1, undollared ln l1 /\ rewritten l1 o) pre outs /\
     (exists l1, undollared ln l1 /\ offending l1) /\ clean_line ln = Raise IndexError).
Proof.
  induction ls as [|ln ls IH].
  - left. exists []. split; constructor.
  - pose proof (drop_dollar_spec ln) as Hu.
    destruct (offending_dec (drop_dollar ln)) as [Ho|Ho].
    + right. exists [], ln, ls, []. split; [reflexivity|]. split; [constructor|]. split; [constructor|].
      split; [exists (drop_dollar ln); split; assumption|]. eapply clean_line_raises; eassumption.
    + destruct (clean_line_ok ln _ Hu Ho) as [o [E Hr]].
      destruct IH as [[outs [I1 I2]]|[pre [l [post [outs [-> [I1 [I2 [I3 I4]]]]]]]]].
      * left. exists (o :: outs). split; constructor; auto. exists (drop_dollar ln). auto.
      * right. exists (ln :: pre), l, post, (o :: outs). split; [reflexivity|].
        split; [constructor; auto|]. split; [constructor; auto; exists (drop_dollar ln); auto|]. auto.
Qed.
