(** Property C104: the order of navigation files and files listed twice. *)
From Coq Require Import ZArith QArith Reals Ascii String Bool Classical Permutation Sorted Lia Lra List.
From Verif Require Import M_Py L_Base M_Str S_Str L_Str M_Ini M_Cal M_Nmea M_ReadNav S_Nmea S_ReadNav L_Nmea L_ReadNav L_Dateline P_Nmea P_ReadNav M_Table M_Script S_NavSame.
Import ListNotations.
Open Scope Z_scope.
Local Notation len := List.length.

Lemma taken_in (A : Type) d (l l' : list A) t : taken d l l' -> In t l' -> In t l.
Proof.
  intros (H0 & H1 & H2) I. destruct (Z.lt_trichotomy d 0) as [L|[L|L]].
  - apply In_nth_error in I. destruct I as [j Hj]. rewrite (H2 L) in Hj. apply nth_error_In in Hj. apply in_rev. exact Hj.
  - rewrite <- (H0 L). exact I.
  - apply In_nth_error in I. destruct I as [j Hj]. rewrite (H1 L) in Hj. exact (nth_error_In _ _ Hj).
Qed.
Lemma first_seen_unique d files t lon lat lon' lat' : first_seen d files t lon lat -> first_seen d files t lon' lat' -> lon' = lon /\ lat' = lat.
Proof.
  intros [b f a i E Nb K I Lo La] [b' f' a' i' E' Nb' K' I' Lo' La'].
  assert (X : f' = f).
  { rewrite E in E'. clear - E' Nb Nb' K K'. revert b' E' Nb'. induction Nb as [|x b Hx _ IH]; intros [|x' b'] E' Nb'; cbn [app] in E'.
    - congruence.
    - assert (x' = f) by congruence. subst. inversion Nb'; contradiction.
    - assert (x = f') by congruence. subst. contradiction.
    - inversion Nb'; subst. apply (IH b'); [congruence|assumption]. }
  subst f'. assert (i' = i) by (apply (first_index_fun (times f) t); assumption). subst i'. split; congruence.
Qed.
Lemma seen_kept d files t lon lat : first_seen d files t lon lat -> Exists (fun f => keeps d f t) files.
Proof. intros [b f a i -> _ K _ _ _]. apply Exists_app. right. left. exact K. Qed.
(** The table is determined by the positions first seen. *)
Theorem C104_same_fixes : forall fsys ship paths paths' sampling talker fn d tk files files', sampling <> 0%R -> (fn = None -> known_ship ship) -> talker_for ship talker tk ->
  Forall2 (provides fsys ship tk fn) paths files -> Forall2 (provides fsys ship tk fn) paths' files' ->
  (forall t lon lat, first_seen d files t lon lat <-> first_seen d files' t lon lat) ->
  read_nav fsys ship paths' sampling talker fn d = read_nav fsys ship paths sampling talker fn d.
Proof.
  assert (V : forall fsys ship paths sampling talker fn d tk files, sampling <> 0%R -> (fn = None -> known_ship ship) -> talker_for ship talker tk ->
    Forall2 (provides fsys ship tk fn) paths files -> exists rows pre, read_nav fsys ship paths sampling talker fn d = Ok (Table rows) /\
    StronglySorted Z.lt (map time rows) /\ (forall t, In t (map time rows) <-> Exists (fun f => keeps d f t) files) /\ cleaned pre (map fix_lon rows) /\ len pre = len rows /\
    (forall k r, nth_error rows k = Some r -> exists lon, nth_error pre k = Some lon /\ first_seen d files (time r) lon (fix_lat r))).
  { intros fsys ship paths sampling talker fn d tk files Hs Hk Ht H. rewrite (read_nav_known _ _ _ _ _ _ _ tk Hk Ht).
    assert (Hw : Forall well_formed files).
    { induction H as [|p f paths files Hp _ IH]; constructor; [exact (proj1 (provides_read _ _ _ _ _ _ Hp))|exact IH]. }
    rewrite (read_files_val _ _ _ _ _ _ files Hs).
    - cbn [bind]. destruct (make_table_val d files Hw) as [pre H']. eexists. exists pre. split; [reflexivity|exact H'].
    - eapply Forall2_weaken; [|exact H]. intros p f Hp. exact (provides_read _ _ _ _ _ _ Hp). }
  intros fsys ship paths paths' sampling talker fn d tk files files' Hs Hk Ht H H' E.
  destruct (V _ _ _ _ _ _ d _ _ Hs Hk Ht H) as (rows & pre & -> & S & Tm & C & L & F). destruct (V _ _ _ _ _ _ d _ _ Hs Hk Ht H') as (rows' & pre' & -> & S' & Tm' & C' & L' & F').
  assert (Et : map time rows' = map time rows).
  { apply (sorted_unique _ Z.lt); [intros; lia|intros; lia|exact S'|exact S|]. intros t. split; intros I; apply in_map_iff in I; destruct I as [r [<- I]]; apply In_nth_error in I; destruct I as [k Hk'].
    - destruct (F' k r Hk') as [lon [_ Fs]]. apply Tm. apply E in Fs. exact (seen_kept _ _ _ _ _ Fs).
    - destruct (F k r Hk') as [lon [_ Fs]]. apply Tm'. apply E in Fs. exact (seen_kept _ _ _ _ _ Fs). }
  assert (Ln : len rows' = len rows) by (rewrite <- (map_length time rows'), Et, map_length; reflexivity).
  assert (P : forall k r r', nth_error rows k = Some r -> nth_error rows' k = Some r' -> time r' = time r /\ fix_lat r' = fix_lat r /\ nth_error pre' k = nth_error pre k).
  { intros k r r' Hr Hr'. assert (X : time r' = time r).
    { assert (Some (time r') = Some (time r)); [|congruence]. rewrite <- (map_nth_error time k rows' Hr'), <- (map_nth_error time k rows Hr), Et. reflexivity. }
    destruct (F k r Hr) as [lon [Hp Fs]]. destruct (F' k r' Hr') as [lon' [Hp' Fs']]. apply E in Fs. rewrite X in Fs'. destruct (first_seen_unique _ _ _ _ _ _ _ Fs Fs') as [-> ->].
    split; [exact X|]. split; [reflexivity|congruence]. }
  assert (Ep : pre' = pre).
  { apply (nth_ext _ _ None None); [lia|]. intros k Hk'. destruct (nth_error rows k) as [r|] eqn:Er; [|apply nth_error_None in Er; lia]. destruct (nth_error rows' k) as [r'|] eqn:Er'; [|apply nth_error_None in Er'; lia].
    destruct (P k r r' Er Er') as (_ & _ & Q). destruct (nth_error pre k) as [v|] eqn:Ev; [|apply nth_error_None in Ev; lia].
    rewrite (nth_error_nth _ _ None Q), (nth_error_nth _ _ None Ev). reflexivity. }
  subst pre'.
  assert (El : map fix_lon rows' = map fix_lon rows).
  { destruct C as [C1 C2], C' as [C1' C2']. destruct (classic (smooth pre)) as [Sm|Sm]; [rewrite (C1 Sm), (C1' Sm); reflexivity|rewrite (C2 Sm), (C2' Sm); reflexivity]. }
  do 2 f_equal. apply (nth_ext _ _ (mk_fix 0 None None) (mk_fix 0 None None)); [exact Ln|]. intros k Hk'.
  destruct (nth_error rows k) as [r|] eqn:Er; [|apply nth_error_None in Er; lia]. destruct (nth_error rows' k) as [r'|] eqn:Er'; [|apply nth_error_None in Er'; lia].
  rewrite (nth_error_nth _ _ _ Er), (nth_error_nth _ _ _ Er'). destruct (P k r r' Er Er') as (P1 & P2 & _).
  assert (P3 : fix_lon r' = fix_lon r).
  { assert (Some (fix_lon r') = Some (fix_lon r)); [|congruence]. rewrite <- (map_nth_error fix_lon k rows' Er'), <- (map_nth_error fix_lon k rows Er), El. reflexivity. }
  destruct r, r'. cbn in *. congruence.
Qed.
Print Assumptions C104_same_fixes.

Lemma keeps_dec d f t : keeps d f t \/ ~ keeps d f t.
Proof. apply classic. Qed.
Lemma seen_in d files t lon lat : first_seen d files t lon lat -> exists f, In f files /\ first_seen d [f] t lon lat.
Proof.
  intros [b f a i -> _ K I Lo La]. exists f. split; [apply in_elt|]. apply (seen_intro d [f] t lon lat [] f [] i eq_refl); try assumption. constructor.
Qed.
Lemma seen_of d files f t lon lat : In f files -> (forall g, In g files -> agree d f g) -> Forall well_formed files -> first_seen d [f] t lon lat -> first_seen d files t lon lat.
Proof.
  intros I Ag W S. assert (X : exists lon' lat', first_seen d files t lon' lat').
  { assert (K : Exists (fun g => keeps d g t) files). { apply Exists_exists. exists f. split; [exact I|]. apply seen_kept in S. inversion S as [? ? K|? ? K]; subst; [exact K|inversion K]. }
    clear - K W. induction K as [g files K|g files K IH].
    - inversion W as [|? ? [_ [W1 W2]] _]; subst. assert (It : In t (times g)) by (destruct K as [l [Tk Il]]; exact (taken_in _ _ _ _ _ Tk Il)).
      destruct (first_index_exists (times g) t It) as [i Fi]. assert (i < len (times g))%nat by (destruct Fi as [Fi _]; apply nth_error_Some; congruence).
      destruct (nth_error (lons g) i) as [lo|] eqn:Elo; [|apply nth_error_None in Elo; lia]. destruct (nth_error (lats g) i) as [la|] eqn:Ela; [|apply nth_error_None in Ela; lia].
      exists lo, la. apply (seen_intro d (g :: files) t lo la [] g files i eq_refl); try assumption. constructor.
    - destruct (keeps_dec d g t) as [Kg|Kg].
      + inversion W as [|? ? [_ [W1 W2]] _]; subst. assert (It : In t (times g)) by (destruct Kg as [l [Tk Il]]; exact (taken_in _ _ _ _ _ Tk Il)).
        destruct (first_index_exists (times g) t It) as [i Fi]. assert (i < len (times g))%nat by (destruct Fi as [Fi _]; apply nth_error_Some; congruence).
        destruct (nth_error (lons g) i) as [lo|] eqn:Elo; [|apply nth_error_None in Elo; lia]. destruct (nth_error (lats g) i) as [la|] eqn:Ela; [|apply nth_error_None in Ela; lia].
        exists lo, la. apply (seen_intro d (g :: files) t lo la [] g files i eq_refl); try assumption. constructor.
      + inversion W; subst. destruct IH as (lo & la & [b f' a i -> Nb K' Fi Lo La]); [assumption|]. exists lo, la. apply (seen_intro d _ t lo la (g :: b) f' a i eq_refl); try assumption. constructor; assumption. }
  destruct X as (lon' & lat' & X). destruct (seen_in _ _ _ _ _ X) as (g & Ig & Sg). destruct (Ag g Ig t lon lat lon' lat' S Sg) as [-> ->]. exact X.
Qed.

(** C104: if the files agree on the times which they share, neither their order nor repetitions matter. *)
Theorem C104_order : forall fsys ship paths paths' sampling talker fn d tk files files', sampling <> 0%R -> (fn = None -> known_ship ship) -> talker_for ship talker tk ->
  Forall2 (provides fsys ship tk fn) paths files -> Forall2 (provides fsys ship tk fn) paths' files' ->
  (forall f, In f files <-> In f files') -> (forall f g, In f files -> In g files -> agree d f g) ->
  read_nav fsys ship paths' sampling talker fn d = read_nav fsys ship paths sampling talker fn d.
Proof.
  intros fsys ship paths paths' sampling talker fn d tk files files' Hs Hk Ht H H' Sm Ag.
  assert (W : forall ps fl, Forall2 (provides fsys ship tk fn) ps fl -> Forall well_formed fl).
  { intros ps fl Q. induction Q as [|p f ps fl Hp _ IH]; constructor; [exact (proj1 (provides_read _ _ _ _ _ _ Hp))|exact IH]. }
  apply (C104_same_fixes fsys ship paths paths' sampling talker fn d tk files files' Hs Hk Ht H H'). intros t lon lat. split; intros S; destruct (seen_in _ _ _ _ _ S) as (f & If & Sf).
  - apply (seen_of d files' f); [apply Sm; exact If|intros g Ig; apply Ag; [exact If|apply Sm; exact Ig]|exact (W _ _ H')|exact Sf].
  - apply (seen_of d files f); [apply Sm; exact If|intros g Ig; apply Ag; [apply Sm; exact If|exact Ig]|exact (W _ _ H)|exact Sf].
Qed.
Print Assumptions C104_order.

(** A file listed again changes nothing, whatever the files hold. *)
Theorem C104_repeated : forall fsys ship a p b c sampling talker fn d tk A f B C, sampling <> 0%R -> (fn = None -> known_ship ship) -> talker_for ship talker tk ->
  Forall2 (provides fsys ship tk fn) a A -> provides fsys ship tk fn p f -> Forall2 (provides fsys ship tk fn) b B -> Forall2 (provides fsys ship tk fn) c C ->
  read_nav fsys ship (a ++ p :: b ++ p :: c) sampling talker fn d = read_nav fsys ship (a ++ p :: b ++ c) sampling talker fn d.
Proof.
  intros fsys ship a p b c sampling talker fn d tk A f B C Hs Hk Ht Ha Hp Hb Hc.
  apply (C104_same_fixes fsys ship _ _ sampling talker fn d tk (A ++ f :: B ++ C) (A ++ f :: B ++ f :: C) Hs Hk Ht).
  - apply Forall2_app; [exact Ha|]. constructor; [exact Hp|]. apply Forall2_app; assumption.
  - apply Forall2_app; [exact Ha|]. constructor; [exact Hp|]. apply Forall2_app; [exact Hb|]. constructor; assumption.
  - assert (X : forall l l', (forall t lon lat, first_seen d l t lon lat -> first_seen d l' t lon lat) -> forall g t lon lat, first_seen d (g :: l) t lon lat -> first_seen d (g :: l') t lon lat).
    { intros l l' Q g t lon lat [b0 f0 a0 i E N K Fi Lo La]. destruct b0 as [|g0 b0]; cbn [app] in E.
      - assert (g = f0) by congruence. subst. apply (seen_intro d (f0 :: l') t lon lat [] f0 l' i eq_refl); try assumption.
      - inversion N as [|? ? Ng N']; subst. assert (g = g0) by congruence. subst g0. destruct (Q t lon lat) as [b1 f1 a1 i1 -> N1 K1 Fi1 Lo1 La1].
        + apply (seen_intro d l t lon lat b0 f0 a0 i); try assumption. congruence.
        + apply (seen_intro d _ t lon lat (g :: b1) f1 a1 i1 eq_refl); try assumption. constructor; assumption. }
    assert (D : forall t lon lat, first_seen d (f :: B ++ C) t lon lat -> first_seen d (f :: B ++ f :: C) t lon lat).
    { intros t lon lat [b0 f0 a0 i E N K Fi Lo La]. destruct b0 as [|g0 b0]; cbn [app] in E.
      - assert (f = f0) by congruence. subst. apply (seen_intro d _ t lon lat [] f0 (B ++ f0 :: C) i eq_refl); try assumption.
      - inversion N as [|? ? Ng N']; subst. assert (f = g0) by congruence. subst g0. assert (E' : B ++ C = b0 ++ f0 :: a0) by congruence. clear E N.
        assert (Y : exists b1 a1, B ++ f :: C = b1 ++ f0 :: a1 /\ Forall (fun g => ~ keeps d g t) b1).
        { clear - E' N' Ng. revert b0 E' N'. induction B as [|x B IH]; intros b0 E' N'; cbn [app] in *.
          - exists (f :: b0), a0. split; [cbn [app]; congruence|constructor; assumption].
          - destruct b0 as [|y b0]; cbn [app] in E'.
            + assert (x = f0) by congruence. subst. exists [], (B ++ f :: C). split; [reflexivity|constructor].
            + inversion N' as [|? ? Ny N'']; subst. assert (x = y) by congruence. subst y. destruct (IH b0) as (b1 & a1 & E1 & N1); [congruence|exact N''|].
              exists (x :: b1), a1. split; [cbn [app]; rewrite E1; reflexivity|constructor; assumption]. }
        destruct Y as (b1 & a1 & E1 & N1). apply (seen_intro d _ t lon lat (f :: b1) f0 a1 i); try assumption; [cbn [app]; rewrite E1; reflexivity|constructor; assumption]. }
    assert (U : forall t lon lat, first_seen d (f :: B ++ f :: C) t lon lat -> first_seen d (f :: B ++ C) t lon lat).
    { intros t lon lat [b0 f0 a0 i E N K Fi Lo La]. destruct b0 as [|g0 b0]; cbn [app] in E.
      - assert (f = f0) by congruence. subst. apply (seen_intro d _ t lon lat [] f0 (B ++ C) i eq_refl); try assumption.
      - inversion N as [|? ? Ng N']; subst. assert (f = g0) by congruence. subst g0. assert (E' : B ++ f :: C = b0 ++ f0 :: a0) by congruence. clear E N.
        assert (Y : exists b1 a1, B ++ C = b1 ++ f0 :: a1 /\ Forall (fun g => ~ keeps d g t) b1).
        { clear - E' N' Ng K. revert b0 E' N'. induction B as [|x B IH]; intros b0 E' N'; cbn [app] in *.
          - destruct b0 as [|y b0]; cbn [app] in E'; [assert (f = f0) by congruence; subst; contradiction|]. inversion N'; subst. exists b0, a0. split; [congruence|assumption].
          - destruct b0 as [|y b0]; cbn [app] in E'.
            + assert (x = f0) by congruence. subst. exists [], (B ++ C). split; [reflexivity|constructor].
            + inversion N' as [|? ? Ny N'']; subst. assert (x = y) by congruence. subst y. destruct (IH b0) as (b1 & a1 & E1 & N1); [congruence|exact N''|].
              exists (x :: b1), a1. split; [cbn [app]; rewrite E1; reflexivity|constructor; assumption]. }
        destruct Y as (b1 & a1 & E1 & N1). apply (seen_intro d _ t lon lat (f :: b1) f0 a1 i); try assumption; [cbn [app]; rewrite E1; reflexivity|constructor; assumption]. }
    clear Ha. intros t lon lat. split; revert t lon lat; induction A as [|g A IH]; cbn [app]; try assumption; apply X; exact IH.
Qed.
Print Assumptions C104_repeated.

(** The scripts: navigation files in another order. *)
Theorem C104_script : forall argsort fsys td ship talker clean paths paths' dgs_paths bias samp tk files files', known_ship ship -> talker_for ship talker tk ->
  Forall2 (provides fsys ship tk None) paths files -> Forall2 (provides fsys ship tk None) paths' files' ->
  (forall f, In f files <-> In f files') -> (forall f g, In f files -> In g files -> agree 0 f g) ->
  dgs_script argsort fsys td ship talker clean paths' dgs_paths bias samp = dgs_script argsort fsys td ship talker clean paths dgs_paths bias samp.
Proof.
  intros argsort fsys td ship talker clean paths paths' dgs_paths bias samp tk files files' Hs Ht H H' Sm Ag. unfold dgs_script, script_nav.
  pose proof (C104_order fsys ship paths paths' 1%R talker None 0 tk files files' R1_neq_R0 (fun _ => Hs) Ht H H' Sm Ag) as E.
  match goal with |- context [read_nav ?a ?b paths' ?c ?e ?f ?g] => replace (read_nav a b paths' c e f g) with (read_nav fsys ship paths 1 talker None 0) by (symmetry; exact E) end. reflexivity.
Qed.
Print Assumptions C104_script.

(** Files that disagree: the order matters, the first file wins. *)
Theorem C104_any_order_refuted : exists fsys ship paths paths' talker fn rows rows', Permutation paths paths' /\
  read_nav fsys ship paths 1 talker fn 0 = Ok (Table rows) /\ read_nav fsys ship paths' 1 talker fn 0 = Ok (Table rows') /\ map time rows' = map time rows /\ rows' <> rows.
Proof.
  exists ex_fs, (lit "Titanic"), [lit "p1"; lit "p2"], [lit "p2"; lit "p1"], (Some (lit "XXGGA")), (Some ex_fn).
  assert (Pr : Forall2 (provides ex_fs (lit "Titanic") (lit "XXGGA") (Some ex_fn)) [lit "p2"; lit "p1"] [d2; d1]).
  { pose proof ex_provided as P. inversion P as [|? ? ? ? P1 P2]; subst. inversion P2; subst. repeat constructor; assumption. }
  destruct (C60_table ex_fs (lit "Titanic") _ 1%R (Some (lit "XXGGA")) (Some ex_fn) 0 (lit "XXGGA") [d2; d1] R1_neq_R0 ltac:(discriminate) eq_refl Pr)
    as (rows' & pre & E & S & Tm & _ & F & _).
  do 2 eexists. split; [apply perm_swap|]. split; [exact C60_table_case|]. split; [exact E|].
  assert (K : forall f t, keeps 0 f t <-> In t (times f)).
  { intros f t. split; [intros [l [[Hl _] Hin]]; rewrite (Hl eq_refl) in Hin; exact Hin|]. intros Hin. exists (times f). split; [|exact Hin]. repeat split; intros; lia. }
  assert (Et : map time rows' = [10; 20; 30]).
  { apply (sorted_unique _ Z.lt); [intros; lia|intros; lia|exact S|repeat constructor; lia|]. intros t. rewrite Tm. rewrite Exists_cons, Exists_cons, Exists_nil, !K. cbn. intuition lia. }
  split; [exact Et|]. intros ->. destruct (F 0%nat _ eq_refl) as (lon & _ & [b f a i Ef N Kf Fi Lo La]). cbn [time fix_lat] in *.
  destruct b as [|g b]; cbn [app] in Ef.
  - assert (f = d2) by congruence. subst f. assert (i = 0%nat). { apply (first_index_fun (times d2) 10); [exact Fi|]. split; [reflexivity|intros j Hj; lia]. }
    subst i. cbn in La. assert (Some 4%R = Some 2%R) by congruence. assert (4 = 2)%R by congruence. lra.
  - assert (g = d2) by congruence. subst g. inversion N as [|? ? Ng _]; subst. apply Ng. apply K. left. reflexivity.
Qed.
Print Assumptions C104_any_order_refuted.

(** Two files that overlap in one fix, in either order and with one of them repeated. *)
Definition e1 : file_data := mk_data [20; 10] [Some 10; Some (19/2)]%R [Some 1; Some 2]%R.
Definition e2 : file_data := mk_data [30; 20] [Some 7; Some 10]%R [Some 4; Some 1]%R.
Definition two_fn (lines : list str) (tk : str) : res nav_arrays :=
  let d := if str_eqb (hd [] lines) (lit "1") then e1 else e2 in Ok (lons d, lats d, Stamps (map Some (times d))).
Lemma e_provides : provides ex_fs (lit "Titanic") (lit "XXGGA") (Some two_fn) (lit "p1") e1 /\ provides ex_fs (lit "Titanic") (lit "XXGGA") (Some two_fn) (lit "p2") e2.
Proof.
  split.
  - exists (lit "1"), [lit "1"]. split; [reflexivity|]. split; [apply lines_one; discriminate|]. split; [|reflexivity]. repeat split; discriminate.
  - exists (lit "2"), [lit "2"]. split; [reflexivity|]. split; [apply lines_one; discriminate|]. split; [|reflexivity]. repeat split; discriminate.
Qed.
Example C104_case : read_nav ex_fs (lit "Titanic") [lit "p2"; lit "p1"; lit "p2"] 1 (Some (lit "XXGGA")) (Some two_fn) 0 =
  read_nav ex_fs (lit "Titanic") [lit "p1"; lit "p2"] 1 (Some (lit "XXGGA")) (Some two_fn) 0 /\
  exists rows, read_nav ex_fs (lit "Titanic") [lit "p1"; lit "p2"] 1 (Some (lit "XXGGA")) (Some two_fn) 0 = Ok (Table rows) /\ map time rows = [10; 20; 30].
Proof.
  destruct e_provides as [P1 P2].
  assert (Single : forall f t lon lat, first_seen 0 [f] t lon lat -> exists i, nth_error (times f) i = Some t /\ nth_error (lons f) i = Some lon /\ nth_error (lats f) i = Some lat).
  { intros f t lon lat [b g a i E _ _ [Fi _] Lo La]. assert (g = f) by (destruct b as [|x [|]]; cbn [app] in E; congruence). subst g. exists i. split; [exact Fi|split; assumption]. }
  split.
  - apply (C104_order ex_fs (lit "Titanic") [lit "p1"; lit "p2"] _ 1%R (Some (lit "XXGGA")) (Some two_fn) 0 (lit "XXGGA") [e1; e2] [e2; e1; e2] R1_neq_R0 ltac:(discriminate) eq_refl).
    + repeat constructor; assumption.
    + repeat constructor; assumption.
    + intros f. cbn [In]. tauto.
    + intros f g If Ig t lon lat lon' lat' S S'. apply Single in S. apply Single in S'. destruct S as (i & H1 & H2 & H3), S' as (j & H4 & H5 & H6).
      destruct If as [<-|[<-|[]]], Ig as [<-|[<-|[]]]; destruct i as [|[|[|i]]]; try discriminate H1; destruct j as [|[|[|j]]]; try discriminate H4; cbn in *; try congruence; split; congruence.
  - destruct (C60_table ex_fs (lit "Titanic") [lit "p1"; lit "p2"] 1%R (Some (lit "XXGGA")) (Some two_fn) 0 (lit "XXGGA") [e1; e2] R1_neq_R0 ltac:(discriminate) eq_refl) as (rows & pre & E & S & Tm & _).
    + repeat constructor; assumption.
    + exists rows. split; [exact E|]. assert (K : forall f t, keeps 0 f t <-> In t (times f)).
      { intros f t. split; [intros [l [[Hl _] Hin]]; rewrite (Hl eq_refl) in Hin; exact Hin|]. intros Hin. exists (times f). split; [|exact Hin]. repeat split; intros; lia. }
      apply (sorted_unique _ Z.lt); [intros; lia|intros; lia|exact S|repeat constructor; lia|]. intros t. rewrite Tm. rewrite Exists_cons, Exists_cons, Exists_nil, !K. cbn. intuition lia.
Qed.
