(** Property C85: cleaning of the serial files (dgs_raw_comp.py). *)
From Coq Require Import ZArith Ascii String Bool Lia Arith Sorted Permutation List.
From Verif Require Import M_Py M_Str S_Str L_Str S_Nmea S_ReadNav L_Dateline M_Ini M_Table S_Table L_Table M_Dgs S_Dgs L_DgsRaw L_ReadNav M_Serial S_Serial.
Import ListNotations.

Lemma keep_line_spec l : keep_line l = true <-> sound_line l.
Proof.
  unfold keep_line, sound_line. rewrite andb_true_iff, containsb_spec, Nat.eqb_eq. change (lit ",") with [","%char]. split; intros [H1 H2]; (split; [exact H1|]).
  - exists (split [","%char] l). split; [exact H2|]. split; [apply split_char_clean|]. symmetry. apply join_split. discriminate.
  - destruct H2 as (fs & L & N & ->). rewrite split_char_join; [exact L|destruct fs; discriminate|exact N].
Qed.
Lemma clean_name_spec p : clean_path p (clean_name p).
Proof.
  unfold clean_path, clean_name. change (lit "/") with ["/"%char]. pose proof (split_char_clean "/" p) as N. pose proof (join_split ["/"%char] p ltac:(discriminate)) as J.
  pose proof (split_nonnil ["/"%char] p) as Z. destruct (exists_last Z) as (ds & name & E). rewrite E in *. clear Z E. rewrite removelast_last, last_last.
  assert (Q : forall x, exists d, join ["/"%char] (ds ++ [x]) = d ++ x /\ (d = [] \/ exists d', d = d' ++ ["/"%char]) /\ forall y, join ["/"%char] (ds ++ [y]) = d ++ y).
  { clear. intros x. destruct ds as [|a ds]; [exists []; cbn; auto|]. exists (join ["/"%char] (a :: ds) ++ ["/"%char]).
    assert (G : forall y, join ["/"%char] ((a :: ds) ++ [y]) = (join ["/"%char] (a :: ds) ++ ["/"%char]) ++ y).
    { intros y. revert a. induction ds as [|b ds IH]; intros a; [cbn; rewrite <- app_assoc; reflexivity|]. change ((a :: b :: ds) ++ [y]) with (a :: (b :: ds) ++ [y]).
      rewrite !join_cons by (cbn [app]; discriminate). rewrite IH, <- !app_assoc. reflexivity. }
    split; [apply G|]. split; [right; eexists; reflexivity|exact G]. }
  destruct (Q name) as (d & E1 & D & E2). exists d, name. split; [rewrite <- J; exact E1|]. split; [|split; [exact D|apply E2]].
  rewrite Forall_forall in N. apply N. apply in_or_app. right. left. reflexivity.
Qed.
Lemma clean_path_fun p q q' : clean_path p q -> clean_path p q' -> q = q'.
Proof.
  intros (d & n & E & N & D & ->) (d' & n' & E' & N' & D' & ->). rewrite E in E'. clear E p.
  assert (G : forall (d n d' n' : str), d ++ n = d' ++ n' -> ~ In "/"%char n -> (d' = [] \/ exists e, d' = e ++ lit "/") -> (List.length d' <= List.length d)%nat).
  { clear. intros d n d' n' E N [->|[e ->]]; [cbn; lia|]. destruct (le_lt_dec (List.length (e ++ lit "/")) (List.length d)) as [|L]; [assumption|exfalso]. apply N.
    rewrite app_length in L. cbn in L. assert (P : e ++ lit "/" = d ++ skipn (List.length d) (e ++ lit "/")).
    { assert (F : firstn (List.length d) (d ++ n) = firstn (List.length d) ((e ++ lit "/") ++ n')) by (rewrite E; reflexivity). rewrite firstn_app, Nat.sub_diag, firstn_all in F. cbn [firstn] in F. rewrite app_nil_r in F.
      rewrite firstn_app in F. replace (List.length d - List.length (e ++ lit "/"))%nat with 0%nat in F by (rewrite app_length; cbn; lia). cbn [firstn] in F. rewrite app_nil_r in F.
      rewrite <- (firstn_skipn (List.length d) (e ++ lit "/")) at 1. rewrite <- F. reflexivity. }
    rewrite P, <- app_assoc in E. apply app_inv_head in E. rewrite E. apply in_or_app. left.
    assert (K : In "/"%char (skipn (List.length d) (e ++ lit "/"))); [|exact K]. rewrite skipn_app. apply in_or_app. right. replace (List.length d - List.length e)%nat with 0%nat by lia. left. reflexivity. }
  assert (L : List.length d = List.length d') by (apply Nat.le_antisymm; [apply (G d' n' d n); auto|apply (G d n d' n'); auto]).
  assert (E1 : d = d' /\ n = n') by (clear - E' L; revert d' L E'; induction d as [|c d IH]; intros [|c' d'] L E; cbn in *; try discriminate; [auto|]; injection E as -> E; injection L as L; destruct (IH _ L E) as [-> ->]; auto).
  destruct E1 as [-> ->]. reflexivity.
Qed.
Lemma clean_text_spec text : cleaned_text text (clean_text text).
Proof.
  destruct (lines_exist text) as (ls & F & E). exists ls, (filter keep_line ls). split; [exact F|]. split; [apply filter_selected; intros; apply keep_line_spec|]. unfold clean_text. rewrite E. reflexivity.
Qed.

(** ** Sorting *)
Lemma str_leb_spec a b : str_leb a b = true <-> lex_le a b.
Proof.
  revert b. induction a as [|x a IH]; intros [|y b]; cbn [str_leb].
  - split; intros; [constructor|reflexivity].
  - split; intros; [constructor|reflexivity].
  - split; intros H; [discriminate|inversion H].
  - destruct (Ascii.eqb_spec x y) as [->|N].
    + rewrite IH. split; intros H; [apply lex_same; exact H|]. inversion H; subst; [lia|assumption].
    + rewrite N.ltb_lt. unfold nat_of_ascii in *. split; intros H; [apply lex_less; unfold nat_of_ascii; lia|]. inversion H; subst; [unfold nat_of_ascii in *; lia|congruence].
Qed.
Lemma str_leb_total a b : str_leb a b = false -> str_leb b a = true.
Proof.
  revert b. induction a as [|x a IH]; intros [|y b]; cbn [str_leb]; try discriminate; try reflexivity.
  destruct (Ascii.eqb_spec x y) as [->|N]; [rewrite ascii_eqb_refl; apply IH|]. destruct (Ascii.eqb_spec y x) as [->|_]; [congruence|].
  rewrite N.ltb_ge, N.ltb_lt. intros H. assert (N_of_ascii x <> N_of_ascii y); [|lia]. intros E. apply N. rewrite <- (ascii_N_embedding x), <- (ascii_N_embedding y), E. reflexivity.
Qed.
Lemma insert_perm s l : Permutation (insert s l) (s :: l).
Proof. induction l as [|t l IH]; cbn [insert]; [reflexivity|]. destruct (str_leb s t); [reflexivity|]. rewrite IH. apply perm_swap. Qed.
Lemma insert_sorted s l : Sorted lex_le l -> Sorted lex_le (insert s l).
Proof.
  induction 1 as [|t l S IH H]; cbn [insert]; [repeat constructor|]. destruct (str_leb s t) eqn:E.
  - constructor; [constructor; assumption|]. constructor. apply str_leb_spec. exact E.
  - constructor; [exact IH|]. apply str_leb_total in E. apply str_leb_spec in E. destruct l as [|u l]; cbn [insert]; [constructor; exact E|].
    destruct (str_leb s u); constructor; [exact E|]. inversion H; assumption.
Qed.
Lemma np_sort_spec l : Permutation (np_sort l) l /\ Sorted lex_le (np_sort l).
Proof. unfold np_sort. induction l as [|s l [P S]]; cbn [fold_right]; [split; constructor|]. split; [rewrite insert_perm; constructor; exact P|apply insert_sorted; exact S]. Qed.

(** ** The loop *)
Lemma clean_file_keeps f p f' r : clean_file f p = (f', r) ->
  (forall q t, f q = Some t -> f' q = Some t) /\
  (r = Ok (clean_name p) /\ (f' = f /\ f (clean_name p) <> None \/ exists text, f p = Some text /\ f (clean_name p) = None /\ f' = fs_write f (clean_name p) (clean_text text)) \/
   r = Raise FileNotFoundError /\ f' = f /\ f p = None /\ f (clean_name p) = None).
Proof.
  unfold clean_file. destruct (f (clean_name p)) as [c|] eqn:E; [|destruct (f p) as [text|] eqn:Ep]; intros H; injection H as <- <-.
  - split; [auto|]. left. split; [reflexivity|]. left. split; [reflexivity|discriminate].
  - split.
    + intros q t Hq. unfold fs_write. destruct (str_eqb q (clean_name p)) eqn:Eq; [apply str_eqb_eq in Eq; subst q; congruence|exact Hq].
    + left. split; [reflexivity|]. right. exists text. auto.
  - split; [auto|]. right. auto.
Qed.
Lemma clean_serial_spec paths : forall f f' r, clean_serial f paths = (f', r) ->
  (forall q t, f q = Some t -> f' q = Some t) /\
  (forall q, f q = None -> f' q = None \/ exists p text, In p paths /\ q = clean_name p /\ f' p = Some text /\ f' q = Some (clean_text text)) /\
  match r with
  | Ok outs => outs = map clean_name paths /\ forall p, In p paths -> f' (clean_name p) <> None
  | Raise e => e = FileNotFoundError /\ exists l1 p l2, paths = l1 ++ p :: l2 /\ f' p = None /\ f' (clean_name p) = None /\ (forall p', In p' l1 -> f' (clean_name p') <> None) /\
      forall q, f q = None -> f' q <> None -> exists p', In p' l1 /\ q = clean_name p'
  end.
Proof.
  induction paths as [|p paths IH]; intros f f' r; cbn [clean_serial]; [intros H; injection H as <- <-; split; [auto|]; split; [auto|]; split; [reflexivity|intros p []]|].
  destruct (clean_file f p) as [f1 r1] eqn:E1. destruct (clean_file_keeps _ _ _ _ E1) as [K1 C]. destruct C as [[-> C]|(-> & -> & C1 & C2)].
  - destruct (clean_serial f1 paths) as [f2 r2] eqn:E2. intros H. assert (f' = f2 /\ r = (do l <- r2; Ok (clean_name p :: l))) as [-> ->] by (injection H as <- <-; auto). clear H. destruct (IH _ _ _ E2) as (K2 & New & R). split; [intros q t Hq; apply K2, K1, Hq|].
    assert (P : f2 (clean_name p) <> None).
    { destruct C as [[-> C]|(text & _ & _ & ->)].
      - destruct (f (clean_name p)) as [t|] eqn:Ep; [|congruence]. rewrite (K2 _ _ Ep). discriminate.
      - rewrite (K2 (clean_name p) (clean_text text)); [discriminate|]. unfold fs_write. rewrite (proj2 (str_eqb_eq _ _) eq_refl). reflexivity. }
    split.
    + intros q Hq. destruct (f1 q) as [t|] eqn:Eq.
      * right. destruct C as [[-> _]|(text & Ep & Eo & ->)]; [congruence|]. unfold fs_write in Eq. destruct (str_eqb q (clean_name p)) eqn:Es; [|congruence]. apply str_eqb_eq in Es. injection Eq as <-.
        exists p, text. split; [left; reflexivity|]. split; [exact Es|]. split; [apply K2, K1, Ep|]. apply K2. unfold fs_write. rewrite (proj2 (str_eqb_eq _ _) Es). reflexivity.
      * destruct (New q Eq) as [N|(p' & text & I & X)]; [left; exact N|right; exists p', text; split; [right; exact I|exact X]].
    + destruct r2 as [outs|e]; cbn [bind].
      * destruct R as [-> A]. split; [reflexivity|]. intros p' [<-|I]; [exact P|apply A, I].
      * destruct R as (-> & l1 & p' & l2 & -> & A & B & D & G). split; [reflexivity|]. exists (p :: l1), p', l2. split; [reflexivity|]. split; [exact A|]. split; [exact B|]. split; [intros x [<-|I]; [exact P|apply D, I]|].
        intros q Hq Hq'. destruct (f1 q) as [t|] eqn:Eq.
        { exists p. split; [left; reflexivity|]. destruct C as [[-> _]|(text & Ep & Eo & ->)]; [congruence|]. unfold fs_write in Eq. destruct (str_eqb q (clean_name p)) eqn:Es; [apply str_eqb_eq; exact Es|congruence]. }
        destruct (G q Eq Hq') as (x & I & X). exists x. split; [right; exact I|exact X].
  - intros H. injection H as <- <-. split; [auto|]. split; [auto|]. split; [reflexivity|]. exists [], p, paths. split; [reflexivity|]. split; [exact C1|]. split; [exact C2|]. split; [intros x []|]. intros q Hq Hq'. congruence.
Qed.

(** C85: files that exist are left alone, one clean file is made beside each raw file, and their names come sorted. *)
Theorem C85_files : forall f paths f' r, clean_files f paths = (f', r) ->
  (forall q t, f q = Some t -> f' q = Some t) /\
  (forall q, f q = None -> f' q = None \/ exists p text t, In p paths /\ clean_path p q /\ f' p = Some text /\ f' q = Some t /\ cleaned_text text t) /\
  match r with
  | Ok outs => Sorted lex_le outs /\ (exists outs0, Permutation outs outs0 /\ Forall2 clean_path paths outs0) /\ forall q, In q outs -> f' q <> None
  | Raise e => e = FileNotFoundError /\ exists l1 p l2, paths = l1 ++ p :: l2 /\ f' p = None /\ (forall q, clean_path p q -> f' q = None) /\
      (forall p' q, In p' l1 -> clean_path p' q -> f' q <> None) /\
      forall q, f q = None -> f' q <> None -> exists p', In p' l1 /\ clean_path p' q
  end.
Proof.
  intros f paths f' r. unfold clean_files. destruct (clean_serial f paths) as [f2 r2] eqn:E. intros H. assert (f' = f2 /\ r = (do l <- r2; Ok (np_sort l))) as [-> ->] by (injection H as <- <-; auto). clear H.
  destruct (clean_serial_spec paths _ _ _ E) as (K & N & R). split; [exact K|]. split.
  - intros q Hq. destruct (N q Hq) as [A|(p & text & I & -> & A & B)]; [left; exact A|right]. exists p, text, (clean_text text). split; [exact I|]. split; [apply clean_name_spec|]. split; [exact A|]. split; [exact B|apply clean_text_spec].
  - destruct r2 as [outs|e]; cbn [bind].
    + destruct R as [-> A]. destruct (np_sort_spec (map clean_name paths)) as [P S]. split; [exact S|]. split.
      * exists (map clean_name paths). split; [exact P|]. clear. induction paths; constructor; [apply clean_name_spec|assumption].
      * intros q I. apply (Permutation_in _ P) in I. apply in_map_iff in I. destruct I as (p & <- & I). apply A, I.
    + destruct R as (-> & l1 & p & l2 & -> & A & B & D & G). split; [reflexivity|]. exists l1, p, l2. split; [reflexivity|]. split; [exact A|]. split.
      * intros q Q. rewrite (clean_path_fun _ _ _ Q (clean_name_spec p)). exact B.
      * split; [intros p' q I Q; rewrite (clean_path_fun _ _ _ Q (clean_name_spec p')); apply D, I|].
        intros q Hq Hq'. destruct (G q Hq Hq') as (p' & I & ->). exists p'. split; [exact I|apply clean_name_spec].
Qed.
Print Assumptions C85_files.

Example C85_missing_case : exists f', clean_files (fun p => if str_eqb p (lit "a") then Some [] else if str_eqb p (lit "c") then Some [] else None)
    [lit "a"; lit "b"; lit "c"] = (f', Raise FileNotFoundError) /\ f' (lit "clean_a") = Some [] /\ f' (lit "clean_c") = None.
Proof. eexists. split; [reflexivity|]. split; reflexivity. Qed.

(** The name of the clean file is determined. *)
Theorem C85_one_name : forall p, exists q, clean_path p q /\ forall q', clean_path p q' -> q' = q.
Proof. intros p. exists (clean_name p). split; [apply clean_name_spec|]. intros q' H. apply (clean_path_fun _ _ _ H (clean_name_spec p)). Qed.
Print Assumptions C85_one_name.

(** Run again, nothing changes. *)
Theorem C85_again : forall f paths f' outs, clean_files f paths = (f', Ok outs) -> clean_files f' paths = (f', Ok outs).
Proof.
  intros f paths f' outs. unfold clean_files. destruct (clean_serial f paths) as [f2 r2] eqn:E. destruct (clean_serial_spec paths _ _ _ E) as (_ & _ & R). destruct r2 as [l|e]; cbn [bind]; intros H.
  2:{ injection H as _ H. discriminate. }
  assert (f' = f2 /\ np_sort l = outs) as [-> <-] by (injection H as <- <-; auto). destruct R as [-> A]. clear E H f.
  assert (G : clean_serial f2 paths = (f2, Ok (map clean_name paths))).
  { induction paths as [|p paths IH]; [reflexivity|]. cbn [clean_serial]. unfold clean_file. destruct (f2 (clean_name p)) as [c|] eqn:Ec; [|exfalso; apply (A p); [left; reflexivity|exact Ec]].
    rewrite IH by (intros p' I; apply A; right; exact I). reflexivity. }
  rewrite G. reflexivity.
Qed.
Print Assumptions C85_again.

(** What has been cleaned is clean. *)
Lemma kept_lines text lines kept : file_lines text lines -> selected sound_line lines kept -> file_lines (concat kept) kept.
Proof.
  intros F. revert kept. induction F as [|l Hl Hn|l t ls Hn F IH]; intros kept S; inversion S; subst; cbn [concat].
  - constructor.
  - match goal with H : selected _ [] _ |- _ => inversion H; subst end. cbn [concat]. rewrite app_nil_r. apply fl_last; assumption.
  - match goal with H : selected _ [] _ |- _ => inversion H; subst end. constructor.
  - rewrite <- app_assoc. cbn [app]. apply fl_line; [exact Hn|]. apply IH. assumption.
  - apply IH. assumption.
Qed.
Lemma cleaned_stable text t : cleaned_text text t -> cleaned_text t t.
Proof.
  intros (lines & kept & F & S & ->). exists kept, kept. split; [apply (kept_lines _ _ _ F S)|]. split; [|reflexivity].
  clear F. induction S as [|a l l' H S IH|a l l' H S IH]; [constructor|apply sel_yes; assumption|assumption].
Qed.
(** What is written is exactly the text of the sound lines. *)
Theorem C85_text : forall text t, cleaned_text text t <-> clean_text text = t.
Proof.
  intros text t. split; [|intros <-; apply clean_text_spec]. intros (lines & kept & F & S & ->). unfold clean_text. rewrite (readlines_lines _ _ F). f_equal.
  apply (selected_fun _ _ _ _ _ (filter_selected _ sound_line keep_line lines (fun a _ => keep_line_spec a)) S).
Qed.
Print Assumptions C85_text.
Theorem C85_stable : forall text, clean_text (clean_text text) = clean_text text.
Proof. intros text. apply C85_text. apply (cleaned_stable text). apply clean_text_spec. Qed.
Print Assumptions C85_stable.

(** Every clean file is up to date with its raw file: refuted, an old clean file is kept. *)
Definition good_line : str := lit "$AT1M-25,1,2,3,4,5,6,7,8,9,10,11,12,13,14,15,16,17,20230616000000".
Definition stale : fs := fun p => if str_eqb p (lit "d/x.txt") then Some (good_line ++ [nl]) else if str_eqb p (lit "d/clean_x.txt") then Some [] else None.
Theorem C85_up_to_date_refuted : exists f paths f' outs p q text t, clean_files f paths = (f', Ok outs) /\ In p paths /\ clean_path p q /\
  f' p = Some text /\ f' q = Some t /\ ~ cleaned_text text t.
Proof.
  exists stale, [lit "d/x.txt"], stale, [lit "d/clean_x.txt"], (lit "d/x.txt"), (lit "d/clean_x.txt"), (good_line ++ [nl]), [].
  split; [reflexivity|]. split; [left; reflexivity|]. split; [apply (clean_name_spec (lit "d/x.txt"))|]. split; [reflexivity|]. split; [reflexivity|].
  intros (lines & kept & F & S & E). apply readlines_lines in F. assert (L : lines = [good_line ++ [nl]]) by (rewrite <- F; reflexivity). subst lines.
  assert (G : sound_line (good_line ++ [nl])) by (apply keep_line_spec; reflexivity).
  inversion S; subst; [|contradiction]. cbn [concat] in E. destruct (app_eq_nil _ _ (eq_sym E)) as [Z _]. discriminate Z.
Qed.
Print Assumptions C85_up_to_date_refuted.
Example C85_case : exists f', clean_files (fun p => if str_eqb p (lit "d/y") then Some (lit "noise" ++ [nl] ++ good_line) else if str_eqb p (lit "b/z") then Some [] else None)
    [lit "d/y"; lit "b/z"] = (f', Ok [lit "b/clean_z"; lit "d/clean_y"]) /\ f' (lit "d/clean_y") = Some good_line /\ f' (lit "b/clean_z") = Some [].
Proof. eexists. split; [reflexivity|]. split; reflexivity. Qed.

(** The raw reader takes every line of a clean file, and all of them are wide enough. *)
Lemma split_len_snoc (c x : ascii) s : x <> c -> List.length (split [c] (s ++ [x])) = List.length (split [c] s).
Proof.
  intros N. pose proof (split_nonnil [c] s) as Z. destruct (exists_last Z) as (ps & q & E). pose proof (join_split [c] s ltac:(discriminate)) as J. pose proof (split_char_clean c s) as C. rewrite E in *.
  assert (G : s ++ [x] = join [c] (ps ++ [q ++ [x]])).
  { rewrite <- J. clear. induction ps as [|p ps IH]; [reflexivity|]. cbn [app] in *. rewrite !join_cons by (destruct ps; discriminate). rewrite <- IH, <- !app_assoc. reflexivity. }
  rewrite G, split_char_join; [rewrite !app_length; reflexivity|destruct ps; discriminate|]. apply Forall_app in C. destruct C as [C1 C2]. apply Forall_app. split; [exact C1|]. constructor; [|constructor].
  inversion C2; subst. rewrite in_app_iff. intros [I|[I|[]]]; [contradiction|congruence].
Qed.
Lemma sound_body l b : sound_line l -> body_of l b -> List.length (split [","%char] b) = 19%nat /\ ~ blank_line "," b.
Proof.
  intros S [_ B]. apply keep_line_spec in S. unfold keep_line in S. apply andb_true_iff in S. destruct S as [_ S]. apply Nat.eqb_eq in S. change (lit ",") with [","%char] in S.
  assert (L : List.length (split [","%char] b) = 19%nat) by (destruct B as [->| ->]; [exact S|rewrite split_len_snoc in S by discriminate; exact S]).
  split; [exact L|]. intros K. rewrite split_char_none in L; [discriminate L|]. intros I. unfold blank_line in K. rewrite Forall_forall in K. destruct (K _ I) as [_ X]. congruence.
Qed.
Theorem C85_read : forall iso text t, cleaned_text text t -> exists lines rows,
  file_lines t lines /\ csv_file "," 0 t rows /\
  Forall2 (fun l r => exists b, body_of l b /\ fields_of "," b r) lines rows /\ Forall (fun r => List.length r = 19%nat) rows /\
  forall e, dgs_raw_general iso t = Raise e ->
    (e = IndexError /\ rows = []) \/ (e = ValueError /\ exists r, In r rows /\ forall c, ~ line_stamp 18 r c) \/
    (e = AttributeError /\ exists r0 rs, rows = r0 :: rs /\ unsynced r0).
Proof.
  intros iso text t (ls & lines & F & S & ->). pose proof (kept_lines _ _ _ F S) as F'. exists lines, (csv_rows "," 0 (concat lines)). split; [exact F'|].
  pose proof (proj2 (csv_rows_file "," 0 (concat lines) _) eq_refl) as C. split; [exact C|].
  assert (A : Forall sound_line lines) by (rewrite Forall_forall; intros l I; apply (selected_In _ _ _ _ _ S) in I; apply I).
  pose proof (lines_bodies _ _ F') as B. assert (R : csv_rows "," 0 (concat lines) = map (fun l => split [","%char] (chomp l)) lines).
  { unfold csv_rows. rewrite (readlines_lines _ _ F'). cbn [skipn]. clear - A B. induction A as [|l lines H A IH]; [reflexivity|]. cbn [map] in B. inversion B; subst. cbn [map filter].
    rewrite (proj2 (blank_false "," (chomp l))) by (apply (sound_body l); assumption). cbn [map]. rewrite IH by assumption. reflexivity. }
  assert (W : Forall2 (fun l r => exists b, body_of l b /\ fields_of "," b r) lines (csv_rows "," 0 (concat lines)) /\ Forall (fun r => List.length r = 19%nat) (csv_rows "," 0 (concat lines))).
  { rewrite R. clear - A B. induction A as [|l lines H A IH]; [split; constructor|]. cbn [map] in *. inversion B; subst. destruct IH as [I1 I2]; [assumption|]. split; constructor; try assumption.
    - exists (chomp l). split; [assumption|apply split_fields].
    - apply (sound_body l); assumption. }
  destruct W as [W1 W2]. split; [exact W1|]. split; [exact W2|]. intros e E. pose proof (raw_general_cases iso (concat lines)) as G. rewrite E in G.
  assert (U : forall rows, csv_file "," 0 (concat lines) rows -> rows = csv_rows "," 0 (concat lines)) by (intros rows K; symmetry; apply csv_rows_file; exact K).
  destruct G as [rows K N|K|r0 rs r K _ _ I N|r0 rs strings s0 K _ Un _ _ _]; pose proof (U _ K) as Er.
  - exfalso. apply N. rewrite Er. destruct (csv_rows "," 0 (concat lines)) as [|r0 rs]; [left; reflexivity|]. right. intros k Ik. exists r0. split; [left; reflexivity|]. inversion W2; subst.
    assert (Q : Forall (fun k => (k < 19)%nat) (map snd raw_fields)) by (repeat constructor). rewrite Forall_forall in Q. specialize (Q _ Ik). unfold str in *. lia.
  - left. split; [reflexivity|]. symmetry. exact Er.
  - right. left. split; [reflexivity|]. exists r. rewrite <- Er. split; assumption.
  - right. right. split; [reflexivity|]. exists r0, rs. split; [symmetry; exact Er|exact Un].
Qed.
Print Assumptions C85_read.
Example C85_read_case : cleaned_text (lit "noise" ++ [nl] ++ good_line) good_line /\ exists f, dgs_raw_general (fun _ => Raise ValueError) good_line = Ok f.
Proof. split; [exact (clean_text_spec (lit "noise" ++ [nl] ++ good_line))|]. eexists. vm_compute. reflexivity. Qed.
