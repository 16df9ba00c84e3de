(** Properties C60-C65: tables of fixes made from navigation files. *)
From Coq Require Import ZArith Reals Ascii String Bool Lia Lra List Sorted.
From Verif Require Import M_Py L_Base M_Str S_Str L_Str M_Ini M_Cal S_Cal L_Cal M_Nmea M_ReadNav S_Nmea S_ReadNav L_Nmea L_Nav2 L_Revelle L_ReadNav L_Dateline P_Nmea.
Import ListNotations.
Open Scope Z_scope.
Local Notation len := List.length.

(** ** Unfolding [read_nav] once the talker is known *)
Definition the_reader (ship : str) (fn : option (list str -> str -> res nav_arrays)) : list str -> str -> res (option nav_arrays) :=
  match fn with Some f => fun a t => do r <- f a t; Ok (Some r) | None => ship_reader ship end.

Lemma read_nav_known fsys ship paths sampling talker fn d tk : (fn = None -> known_ship ship) -> talker_for ship talker tk ->
  read_nav fsys ship paths sampling talker fn d =
  do r <- read_files fsys (the_reader ship fn) tk sampling d paths; match r with None => Ok Refused | Some (t, lo, la) => Ok (Table (make_table t lo la)) end.
Proof.
  intros Hk Ht. unfold read_nav, read_nav_from. destruct (assoc_default ship) as [A1 A2].
  destruct (assoc ship nav_talkers) as [t0|] eqn:E.
  - destruct talker as [t|]; cbn in Ht; [subst t; destruct fn; reflexivity|].
    assert (t0 = tk) by (apply A1 in Ht; congruence). subst t0. destruct fn; reflexivity.
  - destruct fn as [g|].
    + destruct talker as [t|]; cbn in Ht; [subst t; reflexivity|]. apply A1 in Ht. discriminate.
    + exfalso. apply (proj1 A2 eq_refl). apply Hk. reflexivity.
Qed.

Lemma provides_read fsys ship tk fn p f : provides fsys ship tk fn p f ->
  well_formed f /\ exists text, fsys p = Some text /\ the_reader ship fn (readlines text) tk = Ok (Some (lons f, lats f, Stamps (map Some (times f)))).
Proof.
  intros [text [lines [Hf [Hl H]]]]. apply readlines_lines in Hl. destruct fn as [g|]; cbn [the_reader].
  - destruct H as [Hw H]. split; [exact Hw|]. exists text. split; [exact Hf|]. rewrite Hl, H. reflexivity.
  - destruct (nav_file_read _ _ _ _ H) as [Hw Hr]. split; [exact Hw|]. exists text. split; [exact Hf|]. rewrite Hl. exact Hr.
Qed.

(** * C60: times strictly increase, are those of the files, and positions are the first seen. *)
Theorem C60_table : forall fsys ship paths sampling talker fn d tk files,
  sampling <> 0%R -> (fn = None -> known_ship ship) -> talker_for ship talker tk -> Forall2 (provides fsys ship tk fn) paths files ->
  exists rows pre, read_nav fsys ship paths sampling talker fn d = Ok (Table rows) /\
    StronglySorted Z.lt (map time rows) /\
    (forall t, In t (map time rows) <-> Exists (fun f => keeps d f t) files) /\
    len pre = len rows /\
    (forall k r, nth_error rows k = Some r -> exists lon, nth_error pre k = Some lon /\ first_seen d files (time r) lon (fix_lat r)) /\
    (smooth pre -> map fix_lon rows = pre) /\ (~ smooth pre -> date_line_cleaned pre (map fix_lon rows)).
Proof.
  intros fsys ship paths sampling talker fn d tk files Hs Hk Ht H. rewrite (read_nav_known _ _ _ _ _ _ _ tk Hk Ht).
  assert (Hw : Forall well_formed files).
  { induction H as [|p f paths files Hp _ IH]; constructor; [exact (proj1 (provides_read _ _ _ _ _ _ Hp))|exact IH]. }
  rewrite (read_files_val _ _ _ _ _ _ files Hs).
  - cbn [bind]. destruct (make_table_val d files Hw) as [pre [H1 [H2 [[H3 H3'] [H4 H5]]]]].
    exists (make_table (concat (map (fun f => decimated d (times f)) files))
      (concat (map (fun f => map (at_first f (lons f)) (decimated d (times f))) files))
      (concat (map (fun f => map (at_first f (lats f)) (decimated d (times f))) files))), pre.
    split; [reflexivity|]. split; [exact H1|]. split; [exact H2|]. split; [exact H4|]. split; [exact H5|]. split; [exact H3|].
    intros Hn. rewrite (H3' Hn). apply clean_spec.
  - eapply Forall2_weaken; [|exact H]. intros p f Hp. exact (provides_read _ _ _ _ _ _ Hp).
Qed.
Print Assumptions C60_table.

(** Two files (read by a user's function) that overlap, the first one unsorted with a repeated time. *)
Definition d1 : file_data := mk_data [20; 10; 20] [Some 10; Some (19/2); Some 50]%R [Some 1; Some 2; Some 3]%R.
Definition d2 : file_data := mk_data [10; 30] [Some 7; Some (21/2)]%R [Some 4; Some 5]%R.
Definition ex_fs (p : str) : option str := if str_eqb p (lit "p1") then Some (lit "1") else if str_eqb p (lit "p2") then Some (lit "2") else None.
Definition ex_fn (lines : list str) (tk : str) : res nav_arrays :=
  let d := if str_eqb (hd [] lines) (lit "1") then d1 else d2 in Ok (lons d, lats d, Stamps (map Some (times d))).
Lemma lines_one (c : ascii) : c <> nl -> file_lines [c] [[c]].
Proof. intros H. apply fl_last; [discriminate|]. intros [E|[]]. congruence. Qed.
Lemma ex_provided : Forall2 (provides ex_fs (lit "Titanic") (lit "XXGGA") (Some ex_fn)) [lit "p1"; lit "p2"] [d1; d2].
Proof.
  constructor; [|constructor; [|constructor]].
  - exists (lit "1"), [lit "1"]. split; [reflexivity|]. split; [apply lines_one; discriminate|]. split; [|reflexivity]. repeat split; discriminate.
  - exists (lit "2"), [lit "2"]. split; [reflexivity|]. split; [apply lines_one; discriminate|]. split; [|reflexivity]. repeat split; discriminate.
Qed.
Example C60_table_case : read_nav ex_fs (lit "Titanic") [lit "p1"; lit "p2"] 1 (Some (lit "XXGGA")) (Some ex_fn) 0 =
  Ok (Table [mk_fix 10 (Some (19/2)) (Some 2); mk_fix 20 (Some 10) (Some 1); mk_fix 30 (Some (21/2)) (Some 5)]%R).
Proof.
  destruct (C60_table ex_fs (lit "Titanic") _ 1%R (Some (lit "XXGGA")) (Some ex_fn) 0 (lit "XXGGA") [d1; d2] R1_neq_R0 ltac:(discriminate) eq_refl ex_provided)
    as [rows [pre [-> [H1 [H2 [H3 [H4 [H5 _]]]]]]]].
  assert (K : forall f t, keeps 0 f t <-> In t (times f)).
  { intros f t. split; [intros [l [[Hl _] Hin]]; rewrite (Hl eq_refl) in Hin; exact Hin|]. intros Hin. exists (times f). split; [|exact Hin].
    repeat split; intros; lia. }
  assert (ET : map time rows = [10; 20; 30]).
  { apply (sorted_unique _ Z.lt); [intros; lia|intros; lia|exact H1|repeat constructor; lia|]. intros t. rewrite H2. split.
    - intros HE. apply Exists_exists in HE. destruct HE as [f [Hf Hk]]. apply K in Hk. cbn in Hf. destruct Hf as [<-|[<-|[]]]; cbn in *; intuition.
    - intros Ht. apply Exists_exists. cbn in Ht. destruct Ht as [<-|[<-|[<-|[]]]].
      + exists d1. split; [left; reflexivity|apply K; cbn; tauto].
      + exists d1. split; [left; reflexivity|apply K; cbn; tauto].
      + exists d2. split; [right; left; reflexivity|apply K; cbn; tauto]. }
  assert (S : forall t lon lat, first_seen 0 [d1; d2] t lon lat -> (t = 10%Z -> lon = Some (19/2) /\ lat = Some 2)%R /\ (t = 20%Z -> lon = Some 10 /\ lat = Some 1)%R /\ (t = 30%Z -> lon = Some (21/2) /\ lat = Some 5)%R).
  { intros t lon lat [before f after i E Hb Hk [Hi1 Hi2] Elon Elat]. apply K in Hk.
    destruct before as [|b0 [|b1 [|b2 before]]].
    - injection E as <- _. destruct i as [|[|[|i]]]; cbn in *; try discriminate; try (destruct i; discriminate).
      + split; [congruence|]. split; [intros _; split; congruence|congruence].
      + split; [intros _; split; congruence|]. split; congruence.
      + exfalso. apply (Hi2 0%nat); [lia|]. exact Hi1.
    - injection E as <- <- _. inversion Hb as [|x y Hb1 _]; subst. rewrite K in Hb1.
      destruct i as [|[|i]]; cbn in *; try discriminate; try (destruct i; discriminate).
      + exfalso. apply Hb1. right. left. congruence.
      + split; [congruence|]. split; [congruence|]. intros _. split; congruence.
    - discriminate.
    - apply (f_equal (@len file_data)) in E. cbn in E. lia. }
  destruct rows as [|[t0 lo0 la0] [|[t1 lo1 la1] [|[t2 lo2 la2] [|r3 rows]]]]; try discriminate. injection ET as -> -> ->.
  destruct pre as [|p0 [|p1 [|p2 [|p3 pre]]]]; try discriminate.
  destruct (H4 0%nat _ eq_refl) as [l0 [E0 S0]]. apply S in S0. destruct S0 as [S0 _]. cbn [time fix_lat] in S0. destruct (S0 eq_refl) as [-> ->]. injection E0 as ->.
  destruct (H4 1%nat _ eq_refl) as [l1 [E1 S1]]. apply S in S1. destruct S1 as [_ [S1 _]]. cbn [time fix_lat] in S1. destruct (S1 eq_refl) as [-> ->]. injection E1 as ->.
  destruct (H4 2%nat _ eq_refl) as [l2 [E2 S2]]. apply S in S2. destruct S2 as [_ [_ S2]]. cbn [time fix_lat] in S2. destruct (S2 eq_refl) as [-> ->]. injection E2 as ->.
  assert (Hs : smooth [Some (19/2); Some 10; Some (21/2)]%R).
  { intros [|[|[|i]]] a b Ha Hb; cbn in Ha, Hb; try discriminate; try (destruct i; discriminate); injection Ha as <-; injection Hb as <-; apply Rabs_le; lra. }
  specialize (H5 Hs). cbn in H5. injection H5 as -> -> ->. reflexivity.
Qed.

(** An Atlantis file end to end: two fixes in the wrong order and other lines. *)
Definition at_line (clock lat : string) : str := lit "NAV 2024/02/29 10:15:30 $GPGGA," ++ lit clock ++ lit "," ++ lit lat ++ lit ",N,07012.5,W,1" ++ [nl].
Definition at_text : str := at_line "101531.25" "4112.5" ++ lit "NAV $GPVTG" ++ [nl] ++ at_line "101530.25" "4112.25".
Lemma at_lines : file_lines at_text [at_line "101531.25" "4112.5"; lit "NAV $GPVTG" ++ [nl]; at_line "101530.25" "4112.25"].
Proof.
  unfold at_text, at_line. rewrite <- !app_assoc.
  apply (fl_line (lit "NAV 2024/02/29 10:15:30 $GPGGA,101531.25,4112.5,N,07012.5,W,1")); [apply not_in_dec; reflexivity|].
  apply (fl_line (lit "NAV $GPVTG")); [apply not_in_dec; reflexivity|].
  apply (fl_line (lit "NAV 2024/02/29 10:15:30 $GPGGA,101530.25,4112.25,N,07012.5,W,1") []); [apply not_in_dec; reflexivity|constructor].
Qed.
Definition at_time (s : Z) : Z := local_us (mk_datetime 2024 2 29 10 15 s 250000 (Some 0)).
Definition at_data : file_data := mk_data [at_time 31; at_time 30]
  [Some (-1 * (IZR 70 + (IZR 12 + IZR 5 / 10 ^ 1) / 60)); Some (-1 * (IZR 70 + (IZR 12 + IZR 5 / 10 ^ 1) / 60))]%R
  [Some (1 * (IZR 41 + (IZR 12 + IZR 5 / 10 ^ 1) / 60)); Some (1 * (IZR 41 + (IZR 12 + IZR 25 / 10 ^ 2) / 60))]%R.
Definition at_pre : str := lit "NAV 2024/02/29 10:15:30 $".
Definition at_fields (clock lat : string) : list str := [lit clock; lit lat; lit "N"; lit "07012.5"; lit "W"; lit "1" ++ [nl]].
Lemma at_sentence1 : sentence gp (at_line "101531.25" "4112.5") at_pre (at_fields "101531.25" "4112.5").
Proof. apply (mk_sentence gp at_pre (at_fields "101531.25" "4112.5")); (discriminate || reflexivity). Qed.
Lemma at_sentence2 : sentence gp (at_line "101530.25" "4112.25") at_pre (at_fields "101530.25" "4112.25").
Proof. apply (mk_sentence gp at_pre (at_fields "101530.25" "4112.25")); (discriminate || reflexivity). Qed.
Lemma at_stamp s : 0 <= s < 60 -> instant (2024, 2, 29) 10 15 s 250000 (at_time s).
Proof. intros Hs. apply instant_local. apply valid_dec. reflexivity. Qed.
Lemma at_pre_date : Atlantis_date at_pre (2024, 2, 29).
Proof. apply (at_date _ [] (lit " 10:15:30 $")); [reflexivity|intros [a [b E]]; destruct a; discriminate|lia|apply valid_dec; reflexivity]. Qed.
Lemma at_file : nav_file (lit "Atlantis") gp [at_line "101531.25" "4112.5"; lit "NAV $GPVTG" ++ [nl]; at_line "101530.25" "4112.25"] at_data.
Proof.
  assert (Hsel : selected (occurs gp) [at_line "101531.25" "4112.5"; lit "NAV $GPVTG" ++ [nl]; at_line "101530.25" "4112.25"] [at_line "101531.25" "4112.5"; at_line "101530.25" "4112.25"]).
  { apply sel_yes; [apply containsb_spec; reflexivity|]. apply sel_no; [apply no_occ; reflexivity|]. apply sel_yes; [apply containsb_spec; reflexivity|constructor]. }
  apply (nf_intro _ _ _ _ _ (combine (lons at_data) (lats at_data)) gp_usable Hsel).
  - discriminate.
  - constructor; [|constructor; [|constructor]].
    + exists at_pre, (at_fields "101531.25" "4112.5"). split; [exact at_sentence1|]. left. do 2 eexists. split; [|reflexivity].
      apply (pos_intro _ _ _ (lit "101531.25") (lit "N") (lit "W") [lit "1" ++ [nl]] 1 (-1) 41 12 1 5 70 12 1 5); try lia; try reflexivity; constructor.
    + exists at_pre, (at_fields "101530.25" "4112.25"). split; [exact at_sentence2|]. left. do 2 eexists. split; [|reflexivity].
      apply (pos_intro _ _ _ (lit "101530.25") (lit "N") (lit "W") [lit "1" ++ [nl]] 1 (-1) 41 12 2 25 70 12 1 5); try lia; try reflexivity; constructor.
  - reflexivity.
  - reflexivity.
  - apply (sf_Atlantis _ _ _ _ Hsel). constructor; [|constructor; [|constructor]].
    + exists at_pre, (at_fields "101531.25" "4112.5"), (2024, 2, 29), 10, 15, 31, 2%nat, 25, 25. split; [exact at_sentence1|].
      split; [apply no_occ; reflexivity|]. split; [exact at_pre_date|].
      split; [split; [eexists; reflexivity|cbn; lia]|]. split; [split; [reflexivity|split; [lia|right; discriminate]]|]. apply at_stamp. lia.
    + exists at_pre, (at_fields "101530.25" "4112.25"), (2024, 2, 29), 10, 15, 30, 2%nat, 25, 25. split; [exact at_sentence2|].
      split; [apply no_occ; reflexivity|]. split; [exact at_pre_date|].
      split; [split; [eexists; reflexivity|cbn; lia]|]. split; [split; [reflexivity|split; [lia|right; discriminate]]|]. apply at_stamp. lia.
Qed.
Example C60_table_ship_case : exists rows pre, read_nav (fun _ => Some at_text) (lit "Atlantis") [lit "f"] 1 None None 0 = Ok (Table rows) /\
  len pre = len rows /\ (smooth pre -> map fix_lon rows = pre) /\ map time rows = [at_time 30; at_time 31].
Proof.
  destruct (C60_table (fun _ => Some at_text) (lit "Atlantis") [lit "f"] 1%R None None 0 gp [at_data] R1_neq_R0) as [rows [pre [E [H1 [H2 [H3 [H4 [H5 _]]]]]]]].
  - intros _. exists gp. apply dt_gp. left. reflexivity.
  - apply dt_gp. left. reflexivity.
  - constructor; [|constructor]. exists at_text. eexists. split; [reflexivity|]. split; [exact at_lines|exact at_file].
  - exists rows, pre. split; [exact E|]. split; [exact H3|]. split; [exact H5|].
    apply (sorted_unique _ Z.lt); [intros; lia|intros; lia|exact H1|repeat constructor; reflexivity|].
    intros t. rewrite H2. split.
    + intros HE. inversion HE as [f l [l' [[Hl _] Hin]]|f l HE']; subst; [|inversion HE']. rewrite (Hl eq_refl) in Hin. cbn in *. tauto.
    + intros Ht. apply Exists_cons_hd. exists (times at_data). split; [repeat split; intros; lia|]. cbn in *. tauto.
Qed.

(** What stops the reading, at the first file concerned. *)
Lemma read_after fsys ship before sampling talker fn d tk r0 : (fn = None -> known_ship ship) -> talker_for ship talker tk ->
  read_nav fsys ship before sampling talker fn d = Ok (Table r0) -> exists x,
  read_files fsys (the_reader ship fn) tk sampling d before = Ok (Some x).
Proof.
  intros Hk Ht H. rewrite (read_nav_known _ _ _ _ _ _ _ tk Hk Ht) in H.
  destruct (read_files fsys (the_reader ship fn) tk sampling d before) as [[x|]|e]; try discriminate. exists x. reflexivity.
Qed.
Lemma read_stops fsys ship before p after sampling talker fn d tk r0 e : (fn = None -> known_ship ship) -> talker_for ship talker tk ->
  read_nav fsys ship before sampling talker fn d = Ok (Table r0) ->
  read_files fsys (the_reader ship fn) tk sampling d (p :: after) = Raise e ->
  read_nav fsys ship (before ++ p :: after) sampling talker fn d = Raise e.
Proof.
  intros Hk Ht Hb H. destruct (read_after _ _ _ _ _ _ _ _ _ Hk Ht Hb) as [[[t lo] la] Hx].
  rewrite (read_nav_known _ _ _ _ _ _ _ tk Hk Ht), read_files_app, Hx, H. reflexivity.
Qed.

Lemma file_rows_undated sampling d lon lat ts : In None ts -> file_rows sampling d lon lat ts = Raise AttributeError.
Proof.
  intros Hin. unfold file_rows. apply in_split in Hin. destruct Hin as [l1 [l2 ->]].
  assert (G : mapM stamp (l1 ++ None :: l2) = Raise AttributeError).
  { induction l1 as [|[z|] l1 IH]; [reflexivity| |reflexivity]. cbn [app mapM stamp bind]. rewrite IH. reflexivity. }
  rewrite G. reflexivity.
Qed.
Lemma mapM_getr_err (A : Type) (l : list A) idx e : mapM (fun i => getr l i) idx = Raise e -> e = IndexError.
Proof.
  induction idx as [|i idx IH]; [discriminate|]. cbn [mapM]. unfold getr at 1. destruct (nth_error l i); cbn [bind]; [|congruence].
  destruct (mapM (fun i => getr l i) idx); cbn [bind]; [discriminate|]. exact IH.
Qed.
Lemma mapM_getr_raise (A : Type) (l : list A) idx : Exists (fun i => (len l <= i)%nat) idx -> mapM (fun i => getr l i) idx = Raise IndexError.
Proof.
  induction 1 as [i idx H|i idx _ IH]; cbn [mapM]; unfold getr in *.
  - rewrite (proj2 (nth_error_None l i) H). reflexivity.
  - destruct (nth_error l i); [|reflexivity]. cbn [bind]. rewrite IH. reflexivity.
Qed.
Lemma file_rows_short sampling d lon lat ts t i : sampling <> 0%R -> first_index ts t i -> (len lon <= i \/ len lat <= i)%nat ->
  file_rows sampling d lon lat (map Some ts) = Raise IndexError.
Proof.
  intros Hs Hi Hl. unfold file_rows. rewrite mapM_stamp. cbn [bind]. cbv zeta.
  destruct ts as [|t0 ts]; [destruct Hi as [Hi _]; destruct i; discriminate|]. set (l := t0 :: ts) in *.
  destruct (Req_EM_T sampling 0); [contradiction|].
  rewrite (mapM_getr _ l 0) by exact (unique_lt l). cbn [bind].
  assert (Hin : In i (map snd (unique_index l))).
  { apply in_map_iff. exists (t, i). split; [reflexivity|]. apply (proj2 (unique_index_spec l)). exact Hi. }
  assert (G : forall (v : list (option R)), (len v <= i)%nat -> mapM (fun k => getr v k) (map snd (unique_index l)) = Raise IndexError).
  { intros v Hv. apply mapM_getr_raise. apply Exists_exists. exists i. split; assumption. }
  destruct (le_dec (len lon) i) as [H|H]; [rewrite (G lon H); reflexivity|].
  destruct (mapM (fun k => getr lon k) (map snd (unique_index l))) as [x|e] eqn:E; cbn [bind].
  - rewrite (G lat) by lia. reflexivity.
  - apply mapM_getr_err in E. subst e. reflexivity.
Qed.

Theorem C60_missing_file : forall fsys ship before p after sampling talker fn d tk r0, (fn = None -> known_ship ship) -> talker_for ship talker tk ->
  read_nav fsys ship before sampling talker fn d = Ok (Table r0) -> fsys p = None ->
  read_nav fsys ship (before ++ p :: after) sampling talker fn d = Raise FileNotFoundError.
Proof.
  intros fsys ship before p after sampling talker fn d tk r0 Hk Ht Hb Hp. apply (read_stops _ _ _ _ _ _ _ _ _ tk r0); try assumption.
  cbn [read_files]. rewrite Hp. reflexivity.
Qed.
Print Assumptions C60_missing_file.
Example C60_missing_file_case : read_nav ex_fs (lit "Titanic") [lit "p1"; lit "p2"; lit "p3"; lit "p1"] 1 (Some (lit "XXGGA")) (Some ex_fn) 0 = Raise FileNotFoundError.
Proof.
  apply (C60_missing_file ex_fs (lit "Titanic") [lit "p1"; lit "p2"] (lit "p3") [lit "p1"] 1%R (Some (lit "XXGGA")) (Some ex_fn) 0 (lit "XXGGA") _
    ltac:(discriminate) eq_refl C60_table_case eq_refl).
Qed.

(** A file without a line of the talker (min of an empty array); for Ride formats see C62. *)
Theorem C60_no_fixes_raises : forall fsys ship before p after text lines sampling talker d tk r0, known_ship ship -> talker_for ship talker tk ->
  read_nav fsys ship before sampling talker None d = Ok (Table r0) -> fsys p = Some text -> file_lines text lines ->
  ~ In ship [lit "Ride"; lit "Sikuliaq"] -> Forall (fun l => ~ occurs tk l) lines ->
  read_nav fsys ship (before ++ p :: after) sampling talker None d = Raise ValueError.
Proof.
  intros fsys ship before p after text lines sampling talker d tk r0 Hk Ht Hb Hp Hl Hs Hn.
  apply (read_stops _ _ _ _ _ _ _ _ _ tk r0); try assumption; [intros _; exact Hk|]. apply readlines_lines in Hl.
  cbn [read_files the_reader]. rewrite Hp, Hl. destruct (no_talker_coords _ _ Hn) as [E1 E2].
  assert (EC : clock_time lines tk = Ok []) by (unfold clock_time; rewrite E1; reflexivity).
  assert (E : ship_reader ship lines tk = Ok (Some ([], [], Stamps []))).
  { revert Hs. destruct Hk as [t0 [s Hin|s Hin]]; intros Hs; cbn in Hin; repeat (destruct Hin as [<-|Hin]); try destruct Hin; try (exfalso; apply Hs; first [left; reflexivity|right; left; reflexivity]); unfold ship_reader; cbn; rewrite E2; cbn [bind].
    - unfold navdate_Atlantis, dated. rewrite EC. cbn [bind]. rewrite E1. reflexivity.
    - unfold navdate_NBP, dated. rewrite EC. cbn [bind]. rewrite E1. reflexivity.
    - unfold navdate_Revelle. rewrite EC. cbn [bind]. rewrite combine_nil. reflexivity.
    - unfold navdate_Thompson, dated. rewrite EC. cbn [bind]. rewrite E1. reflexivity.
    - unfold navdate_Langseth. rewrite E1. reflexivity. }
  rewrite E. reflexivity.
Qed.
Print Assumptions C60_no_fixes_raises.
Example C60_no_fixes_case : read_nav (fun _ => Some (lit "$GPVTG,1")) (lit "Langseth") [lit "f"] 1 None None 0 = Raise ValueError.
Proof.
  apply (C60_no_fixes_raises (fun _ => Some (lit "$GPVTG,1")) (lit "Langseth") [] (lit "f") [] (lit "$GPVTG,1") [lit "$GPVTG,1"] 1%R None 0 inn []).
  - exists inn. apply dt_in. right. right. left. reflexivity.
  - apply dt_in. right. right. left. reflexivity.
  - reflexivity.
  - reflexivity.
  - apply fl_last; [discriminate|apply not_in_dec; reflexivity].
  - intros [E|[E|[]]]; discriminate.
  - repeat constructor. apply no_occ. reflexivity.
Qed.

(** Revelle: a fix without a date after the previous fix. *)
Theorem C60_undated_Revelle_raises : forall fsys before p after text blocks tail rs rows sampling talker d tk r0, talker_for (lit "Revelle") talker tk ->
  read_nav fsys (lit "Revelle") before sampling talker None d = Ok (Table r0) -> fsys p = Some text ->
  file_lines text (revelle_text blocks tail) -> usable tk -> revelle_layout tk blocks tail ->
  Forall2 (fix_read tk) (map snd blocks) rows -> Forall2 (block_read tk) blocks rs -> In None rs ->
  read_nav fsys (lit "Revelle") (before ++ p :: after) sampling talker None d = Raise AttributeError.
Proof.
  intros fsys before p after text blocks tail rs rows sampling talker d tk r0 Ht Hb Hp Hl Hu Hlay Hf Hr Hn.
  apply (read_stops _ _ _ _ _ _ _ _ _ tk r0); try assumption; [intros _; exists (lit "GPGGA"); apply dt_gp; right; right; left; reflexivity|].
  apply readlines_lines in Hl. cbn [read_files the_reader]. rewrite Hp, Hl.
  assert (E : ship_reader (lit "Revelle") (revelle_text blocks tail) tk = Ok (Some (map fst rows, map snd rows, Stamps rs))).
  { unfold ship_reader. cbn. rewrite (navcoords_read _ _ _ _ Hu (revelle_selected _ _ _ Hlay) Hf). cbn [bind].
    rewrite (Revelle_times _ _ _ _ Hu Hlay Hr). reflexivity. }
  rewrite E. cbn [bind]. rewrite file_rows_undated by exact Hn. reflexivity.
Qed.
Print Assumptions C60_undated_Revelle_raises.
Definition rv_bad : str := lit "$GPGGA,101530.25,4112.5,N,07012.5,W".
Example C60_undated_Revelle_case : read_nav (fun _ => Some rv_bad) (lit "Revelle") [lit "f"] 1 None None 0 = Raise AttributeError.
Proof.
  assert (Hsen : sentence gp rv_bad (lit "$") [lit "101530.25"; lit "4112.5"; lit "N"; lit "07012.5"; lit "W"]).
  { apply (mk_sentence gp (lit "$") [lit "101530.25"; lit "4112.5"; lit "N"; lit "07012.5"; lit "W"]); (discriminate || reflexivity). }
  apply (C60_undated_Revelle_raises (fun _ => Some rv_bad) [] (lit "f") [] rv_bad [([], rv_bad)] [] [None]
    [(Some (-1 * (IZR 70 + (IZR 12 + IZR 5 / 10 ^ 1) / 60)), Some (1 * (IZR 41 + (IZR 12 + IZR 5 / 10 ^ 1) / 60)))]%R 1%R None 0 gp []).
  - apply dt_gp. right. right. left. reflexivity.
  - reflexivity.
  - reflexivity.
  - apply fl_last; [discriminate|apply not_in_dec; reflexivity].
  - exact gp_usable.
  - split; [|constructor]. repeat constructor. apply containsb_spec. reflexivity.
  - repeat constructor. exists (lit "$"), [lit "101530.25"; lit "4112.5"; lit "N"; lit "07012.5"; lit "W"]. split; [exact Hsen|]. left. do 2 eexists. split; [|reflexivity].
    apply (pos_intro _ _ _ (lit "101530.25") (lit "N") (lit "W") [] 1 (-1) 41 12 1 5 70 12 1 5); try lia; try reflexivity; constructor.
  - constructor; [|constructor]. exists (lit "$"), [lit "101530.25"; lit "4112.5"; lit "N"; lit "07012.5"; lit "W"], 10, 15, 30, 2%nat, 25, 25.
    split; [exact Hsen|]. split; [split; [eexists; reflexivity|cbn; lia]|]. split; [split; [reflexivity|split; [lia|right; discriminate]]|].
    right. split; [constructor|reflexivity].
  - left. reflexivity.
Qed.

(** A user's reader: its exceptions pass, missing times and short arrays raise. *)
Theorem C60_user_reader_raises : forall fsys ship before p after text lines sampling talker g d tk r0 e, talker_for ship talker tk ->
  read_nav fsys ship before sampling talker (Some g) d = Ok (Table r0) -> fsys p = Some text -> file_lines text lines -> sampling <> 0%R ->
  (g lines tk = Raise e) \/
  (e = AttributeError /\ exists lon lat ts, g lines tk = Ok (lon, lat, Stamps ts) /\ In None ts) \/
  (e = ValueError /\ exists lon lat, g lines tk = Ok (lon, lat, Stamps [])) \/
  (e = IndexError /\ exists lon lat ts t i, g lines tk = Ok (lon, lat, Stamps (map Some ts)) /\ first_index ts t i /\ (len lon <= i \/ len lat <= i)%nat) ->
  read_nav fsys ship (before ++ p :: after) sampling talker (Some g) d = Raise e.
Proof.
  intros fsys ship before p after text lines sampling talker g d tk r0 e Ht Hb Hp Hl Hs H.
  apply (read_stops _ _ _ _ _ _ _ _ _ tk r0); try assumption; [discriminate|]. apply readlines_lines in Hl.
  cbn [read_files the_reader]. rewrite Hp, Hl. destruct H as [H|[[-> [lon [lat [ts [H Hn]]]]]|[[-> [lon [lat H]]]|[-> [lon [lat [ts [t [i [H [Hi Hi']]]]]]]]]]]; rewrite H; cbn [bind].
  - reflexivity.
  - rewrite file_rows_undated by exact Hn. reflexivity.
  - reflexivity.
  - rewrite (file_rows_short _ _ _ _ _ t i) by assumption. reflexivity.
Qed.
Print Assumptions C60_user_reader_raises.
Example C60_user_reader_case :
  read_nav ex_fs (lit "Titanic") [lit "p1"] 1 (Some (lit "XXGGA")) (Some (fun _ _ => Ok ([Some 1%R; Some 2%R], [Some 1%R; Some 2%R], Stamps [Some 10; Some 10; Some 20]))) 0 = Raise IndexError.
Proof.
  apply (C60_user_reader_raises ex_fs (lit "Titanic") [] (lit "p1") [] (lit "1") [lit "1"] 1%R (Some (lit "XXGGA")) _ 0 (lit "XXGGA") []); [reflexivity|reflexivity|reflexivity|apply lines_one; discriminate|exact R1_neq_R0|].
  right. right. right. split; [reflexivity|]. exists [Some 1%R; Some 2%R], [Some 1%R; Some 2%R], [10; 10; 20], 20, 2%nat. split; [reflexivity|]. split; [|left; reflexivity].
  split; [reflexivity|]. intros [|[|j]] Hj; [discriminate|discriminate|lia].
Qed.

(** * C61: the sampling interval is not used. *)
Theorem C61_sampling_ignored : forall fsys ship paths s1 s2 talker fn d, s1 <> 0%R -> s2 <> 0%R ->
  read_nav fsys ship paths s1 talker fn d = read_nav fsys ship paths s2 talker fn d.
Proof.
  intros fsys ship paths s1 s2 talker fn d H1 H2.
  assert (F : forall lon lat ts, file_rows s1 d lon lat ts = file_rows s2 d lon lat ts).
  { intros lon lat ts. unfold file_rows. destruct (Req_EM_T s1 0); [contradiction|]. destruct (Req_EM_T s2 0); [contradiction|]. reflexivity. }
  assert (G : forall reader tk, read_files fsys reader tk s1 d paths = read_files fsys reader tk s2 d paths).
  { intros reader tk. induction paths as [|p paths IH]; [reflexivity|]. cbn [read_files]. destruct (fsys p) as [text|]; [|reflexivity].
    destruct (reader (readlines text) tk) as [[[[lon lat] [|ts]]|]|e]; cbn [bind]; try reflexivity. rewrite F, IH. reflexivity. }
  unfold read_nav, read_nav_from. destruct (assoc ship nav_talkers), fn, talker; try reflexivity; rewrite G; reflexivity.
Qed.
Print Assumptions C61_sampling_ignored.
Theorem C61_resampled_refuted : exists fsys ship paths sampling talker fn d rows, (0 < sampling)%R /\
  read_nav fsys ship paths sampling talker fn d = Ok (Table rows) /\
  ~ forall k a b, nth_error rows k = Some a -> nth_error rows (S k) = Some b -> (IZR (time b - time a) / 1000000 = sampling)%R.
Proof.
  exists ex_fs, (lit "Titanic"), [lit "p1"; lit "p2"], 1%R, (Some (lit "XXGGA")), (Some ex_fn), 0. eexists. split; [lra|]. split; [exact C60_table_case|].
  intros H. specialize (H 0%nat _ _ eq_refl eq_refl). cbn in H. lra.
Qed.
Print Assumptions C61_resampled_refuted.
Example C61_sampling_ignored_case : read_nav ex_fs (lit "Titanic") [lit "p1"; lit "p2"] 100 (Some (lit "XXGGA")) (Some ex_fn) 0 =
  Ok (Table [mk_fix 10 (Some (19/2)) (Some 2); mk_fix 20 (Some 10) (Some 1); mk_fix 30 (Some (21/2)) (Some 5)]%R).
Proof. rewrite (C61_sampling_ignored _ _ _ 100 1) by lra. exact C60_table_case. Qed.
(** with a sampling of 0 any readable file raises (the step of arange) *)
Theorem C61_zero_raises : forall fsys ship p paths talker fn d tk f, (fn = None -> known_ship ship) -> talker_for ship talker tk ->
  provides fsys ship tk fn p f -> read_nav fsys ship (p :: paths) 0 talker fn d = Raise ValueError.
Proof.
  intros fsys ship p paths talker fn d tk f Hk Ht H. rewrite (read_nav_known _ _ _ _ _ _ _ tk Hk Ht).
  destruct (provides_read _ _ _ _ _ _ H) as [Hw [text [Hf Hr]]]. cbn [read_files]. rewrite Hf, Hr. cbn [bind]. unfold file_rows. rewrite mapM_stamp. cbn [bind]. cbv zeta.
  destruct (times f); [reflexivity|]. destruct (Req_EM_T 0 0); [reflexivity|congruence].
Qed.
Print Assumptions C61_zero_raises.
Example C61_zero_case : read_nav ex_fs (lit "Titanic") [lit "p1"; lit "p2"] 0 (Some (lit "XXGGA")) (Some ex_fn) 0 = Raise ValueError.
Proof.
  pose proof ex_provided as H. inversion H; subst. apply (C61_zero_raises ex_fs (lit "Titanic") (lit "p1") [lit "p2"] (Some (lit "XXGGA")) (Some ex_fn) 0 (lit "XXGGA") d1); [discriminate|reflexivity|assumption].
Qed.

(** * C62: which requests are refused. *)
(** file [p] makes the request unanswerable *)
Definition refusing (ship tk : str) (fn : option (list str -> str -> res nav_arrays)) (lines : list str) : Prop :=
  match fn with
  | Some g => exists lon lat, g lines tk = Ok (lon, lat, Sentinel)
  | None => (ship = lit "Sikuliaq" /\ tk <> lit "GPGGA") \/ (In ship [lit "Ride"; lit "Sikuliaq"] /\ Forall (fun l => ~ occurs tk l) lines)
  end.
Theorem C62_refused_iff : forall fsys ship paths sampling talker fn d,
  read_nav fsys ship paths sampling talker fn d = Ok Refused <->
  (~ known_ship ship /\ (fn = None \/ talker = None)) \/
  ((known_ship ship \/ fn <> None) /\ exists tk before p after text lines r0, talker_for ship talker tk /\ paths = before ++ p :: after /\
     read_nav fsys ship before sampling talker fn d = Ok (Table r0) /\ fsys p = Some text /\ file_lines text lines /\ refusing ship tk fn lines).
Proof.
  intros fsys ship paths sampling talker fn d. destruct (assoc_default ship) as [A1 A2]. split.
  - intros H. destruct (assoc ship nav_talkers) as [t0|] eqn:Ea.
    + right. assert (Hk : known_ship ship) by (exists t0; apply A1; reflexivity). split; [left; exact Hk|].
      assert (Ht : exists tk, talker_for ship talker tk) by (destruct talker as [t|]; [exists t; reflexivity|exists t0; apply A1; reflexivity]).
      destruct Ht as [tk Ht]. rewrite (read_nav_known _ _ _ _ _ _ _ tk (fun _ => Hk) Ht) in H.
      destruct (read_files fsys (the_reader ship fn) tk sampling d paths) as [[[[t lo] la]|]|e] eqn:Er; try discriminate.
      destruct (read_files_refused _ _ _ _ _ _ Er) as [before [p [after [text [[[t' lo'] la'] [-> [Hb [Hf Hr]]]]]]]].
      destruct (lines_exist text) as [lines [Hl El]]. rewrite El in Hr.
      exists tk, before, p, after, text, lines. exists (make_table t' lo' la'). split; [exact Ht|]. split; [reflexivity|].
      split; [rewrite (read_nav_known _ _ _ _ _ _ _ tk (fun _ => Hk) Ht), Hb; reflexivity|]. split; [exact Hf|]. split; [exact Hl|].
      destruct fn as [g|]; cbn [the_reader refusing] in *.
      * destruct (g lines tk) as [[[lon lat] ts]|e]; cbn [bind] in Hr; [|destruct Hr as [Hr|[lon [lat Hr]]]; discriminate].
        destruct Hr as [Hr|[lon' [lat' Hr]]]; [discriminate|]. exists lon', lat'. injection Hr as -> -> ->. reflexivity.
      * destruct Hr as [Hr|[lon [lat Hr]]]; [left; apply (ship_reader_none ship tk lines Hk); exact Hr|].
        right. exact (ship_reader_sentinel _ _ _ _ _ Hk Hr).
    + assert (Hk : ~ known_ship ship) by (apply A2; reflexivity). destruct fn as [g|]; [|left; split; [exact Hk|left; reflexivity]].
      destruct talker as [tk|]; [|left; split; [exact Hk|right; reflexivity]].
      assert (Hg : Some g = None -> known_ship ship) by discriminate.
      right. split; [right; discriminate|]. rewrite (read_nav_known _ _ _ _ (Some tk) _ _ tk Hg eq_refl) in H.
      destruct (read_files fsys (the_reader ship (Some g)) tk sampling d paths) as [[[[t lo] la]|]|e] eqn:Er; try discriminate.
      destruct (read_files_refused _ _ _ _ _ _ Er) as [before [p [after [text [[[t' lo'] la'] [-> [Hb [Hf Hr]]]]]]]].
      destruct (lines_exist text) as [lines [Hl El]]. rewrite El in Hr.
      exists tk, before, p, after, text, lines. exists (make_table t' lo' la'). split; [reflexivity|]. split; [reflexivity|].
      split; [rewrite (read_nav_known _ _ _ _ (Some tk) _ _ tk Hg eq_refl), Hb; reflexivity|]. split; [exact Hf|]. split; [exact Hl|].
      cbn [the_reader refusing] in *. destruct (g lines tk) as [[[lon lat] ts]|e]; cbn [bind] in Hr; [|destruct Hr as [Hr|[lon [lat Hr]]]; discriminate].
      destruct Hr as [Hr|[lon' [lat' Hr]]]; [discriminate|]. exists lon', lat'. injection Hr as -> -> ->. reflexivity.
  - intros [[Hk H]|[Hk [tk [before [p [after [text [lines [r0 [Ht [-> [Hb [Hf [Hl Hr]]]]]]]]]]]]]].
    + unfold read_nav, read_nav_from. rewrite (proj2 A2 Hk). destruct H as [->| ->]; [reflexivity|]. destruct fn; reflexivity.
    + assert (Hk' : fn = None -> known_ship ship) by (intros E; destruct Hk as [Hk|Hk]; [exact Hk|contradiction]).
      destruct (read_after _ _ _ _ _ _ _ _ _ Hk' Ht Hb) as [[[t lo] la] Hx]. rewrite (read_nav_known _ _ _ _ _ _ _ tk Hk' Ht), read_files_app, Hx.
      cbn [read_files]. rewrite Hf, (readlines_lines _ _ Hl). destruct fn as [g|]; cbn [the_reader refusing] in *.
      * destruct Hr as [lon [lat ->]]. reflexivity.
      * specialize (Hk' eq_refl). assert (Hcase : (ship = lit "Sikuliaq" /\ tk <> lit "GPGGA") \/ (In ship [lit "Ride"; lit "Sikuliaq"] /\ (ship = lit "Sikuliaq" -> tk = lit "GPGGA") /\ Forall (fun l => ~ occurs tk l) lines)).
        { destruct Hr as [Hr|[Hr1 Hr2]]; [left; exact Hr|]. destruct (str_eqb tk (lit "GPGGA")) eqn:E.
          - apply str_eqb_eq in E. right. tauto.
          - apply str_eqb_neq in E. destruct Hr1 as [<-|[<-|[]]]; [right|left; split; [reflexivity|exact E]].
            split; [left; reflexivity|]. split; [discriminate|exact Hr2]. }
        destruct Hcase as [Hc|[Hc1 [Hc2 Hc3]]].
        -- rewrite (proj2 (ship_reader_none ship tk lines Hk') Hc). reflexivity.
        -- rewrite (ship_reader_lacking _ _ _ Hc1 Hc2 Hc3). reflexivity.
Qed.
Print Assumptions C62_refused_iff.
Example C62_unknown_ship_case : forall fsys paths, read_nav fsys (lit "Titanic") paths 1 (Some gp) None 0 = Ok Refused /\ read_nav fsys (lit "Titanic") paths 1 None (Some ex_fn) 0 = Ok Refused.
Proof. intros fsys paths. split; reflexivity. Qed.
Example C62_lacking_case : read_nav (fun _ => Some (lit "$GPVTG,1")) (lit "Ride") [lit "f"; lit "g"] 1 None None 0 = Ok Refused.
Proof.
  apply C62_refused_iff. right. assert (K : known_ship (lit "Ride")) by (exists inn; apply dt_in; right; left; reflexivity). split; [left; exact K|].
  exists inn, [], (lit "f"), [lit "g"], (lit "$GPVTG,1"), [lit "$GPVTG,1"], []. split; [apply dt_in; right; left; reflexivity|]. split; [reflexivity|]. split; [reflexivity|].
  split; [reflexivity|]. split; [apply fl_last; [discriminate|apply not_in_dec; reflexivity]|]. right. split; [left; reflexivity|]. repeat constructor. apply no_occ. reflexivity.
Qed.

(** * C63: decimation. *)
Lemma sorted_nth (l : list Z) : StronglySorted Z.lt l -> forall i j a b, nth_error l i = Some a -> nth_error l j = Some b -> (i < j)%nat -> a < b.
Proof.
  induction 1 as [|x l Hs IH Hx]; intros i j a b Hi Hj Hij; [destruct i; discriminate|].
  destruct j as [|j]; [lia|]. cbn in Hj. destruct i as [|i].
  - cbn in Hi. injection Hi as <-. rewrite Forall_forall in Hx. apply Hx. apply nth_error_In in Hj. exact Hj.
  - cbn in Hi. apply (IH i j); try assumption. lia.
Qed.
Lemma nth_sorted (l : list Z) : (forall i j a b, nth_error l i = Some a -> nth_error l j = Some b -> (i < j)%nat -> a < b) -> StronglySorted Z.lt l.
Proof.
  induction l as [|x l IH]; intros H; constructor.
  - apply IH. intros i j a b Hi Hj Hij. apply (H (S i) (S j)); try assumption. lia.
  - apply Forall_forall. intros y Hy. apply In_nth_error in Hy. destruct Hy as [j Hj]. apply (H 0%nat (S j)); [reflexivity|exact Hj|lia].
Qed.
Definition step (d : Z) : nat := if d =? 0 then 1%nat else Z.to_nat d.
Lemma taken_step (A : Type) d (l l' : list A) : 0 <= d -> taken d l l' -> forall j, nth_error l' j = nth_error l (j * step d).
Proof.
  intros Hd [H0 [H1 _]] j. unfold step. destruct (Z.eqb_spec d 0) as [->|Hne]; [rewrite (H0 eq_refl), Nat.mul_1_r; reflexivity|]. apply H1. lia.
Qed.
Lemma step_pos d : 0 <= d -> (0 < step d)%nat.
Proof. intros Hd. unfold step. destruct (Z.eqb_spec d 0); lia. Qed.
Theorem C63_every_dth : forall fsys ship p sampling talker fn d tk f, sampling <> 0%R -> (fn = None -> known_ship ship) -> talker_for ship talker tk ->
  provides fsys ship tk fn p f -> StronglySorted Z.lt (times f) -> 0 <= d ->
  exists rows pre, read_nav fsys ship [p] sampling talker fn d = Ok (Table rows) /\ (smooth pre -> map fix_lon rows = pre) /\
    forall k, let n := (k * if (d =? 0)%Z then 1 else Z.to_nat d)%nat in
      option_map time (nth_error rows k) = nth_error (times f) n /\ nth_error pre k = nth_error (lons f) n /\ option_map fix_lat (nth_error rows k) = nth_error (lats f) n.
Proof.
  intros fsys ship p sampling talker fn d tk f Hs Hk Ht Hp Hsort Hd.
  destruct (C60_table fsys ship [p] sampling talker fn d tk [f] Hs Hk Ht ltac:(repeat constructor; exact Hp)) as [rows [pre [E [H1 [H2 [H3 [H4 [H5 _]]]]]]]].
  destruct (provides_read _ _ _ _ _ _ Hp) as [[Hne [L1 L2]] _].
  exists rows, pre. split; [exact E|]. split; [exact H5|].
  pose proof (taken_step _ _ _ _ Hd (decimated_taken _ d (times f))) as HD.
  assert (ET : map time rows = decimated d (times f)).
  { apply (sorted_unique _ Z.lt); [intros; lia|intros; lia|exact H1| |].
    - apply nth_sorted. intros i j a b Hi Hj Hij. rewrite HD in Hi, Hj. apply (sorted_nth _ Hsort _ _ _ _ Hi Hj). pose proof (step_pos d Hd). nia.
    - intros t. rewrite H2, <- keeps_in. split; [intros HE; inversion HE as [g l HE'|g l HE']; subst; [exact HE'|inversion HE']|]. intros Hkp. apply Exists_cons_hd. exact Hkp. }
  intros k. cbv zeta. fold (step d).
  assert (Etime : option_map time (nth_error rows k) = nth_error (times f) (k * step d)) by (rewrite <- nth_error_map, ET, HD; reflexivity).
  split; [exact Etime|].
  destruct (nth_error rows k) as [r|] eqn:Er; cbn [option_map] in *.
  - destruct (H4 k r Er) as [lon [Hlon Hseen]]. rewrite Hlon. destruct Hseen as [before g after i Ef Hb Hkp Hi Elon Elat].
    assert (Eg : g = f /\ before = []) by (destruct before as [|b0 before]; [injection Ef as ->; tauto|destruct before; discriminate]). destruct Eg as [-> ->].
    assert (Ei : i = (k * step d)%nat).
    { destruct Hi as [Hi _]. destruct (lt_eq_lt_dec i (k * step d)) as [[Hlt|He]|Hlt]; [|exact He|].
      - pose proof (sorted_nth _ Hsort _ _ _ _ Hi (eq_sym Etime) Hlt). lia.
      - pose proof (sorted_nth _ Hsort _ _ _ _ (eq_sym Etime) Hi Hlt). lia. }
    subst i. split; [symmetry; exact Elon|symmetry; exact Elat].
  - symmetry in Etime. apply nth_error_None in Etime. rewrite (proj2 (nth_error_None pre k)) by (rewrite H3; apply nth_error_None; exact Er).
    rewrite (proj2 (nth_error_None (lons f) _)) by lia. rewrite (proj2 (nth_error_None (lats f) _)) by lia. split; reflexivity.
Qed.
Print Assumptions C63_every_dth.
(** five fixes, every second one *)
Definition d5 : file_data := mk_data [1; 2; 3; 4; 5] [Some 1; Some 2; Some 3; Some 4; Some 5]%R [Some 0; Some 1; Some 0; Some 1; Some 0]%R.
Definition fn5 (lines : list str) (tk : str) : res nav_arrays := Ok (lons d5, lats d5, Stamps (map Some (times d5))).
Example C63_case : exists rows, read_nav ex_fs (lit "Titanic") [lit "p1"] 1 (Some (lit "XXGGA")) (Some fn5) 2 = Ok (Table rows) /\
  map time rows = [1; 3; 5] /\ map fix_lat rows = [Some 0; Some 0; Some 0]%R.
Proof.
  destruct (C63_every_dth ex_fs (lit "Titanic") (lit "p1") 1%R (Some (lit "XXGGA")) (Some fn5) 2 (lit "XXGGA") d5 R1_neq_R0) as [rows [pre [E [_ H]]]].
  - discriminate.
  - reflexivity.
  - exists (lit "1"), [lit "1"]. split; [reflexivity|]. split; [apply lines_one; discriminate|]. split; [repeat split; discriminate|reflexivity].
  - repeat constructor; lia.
  - lia.
  - exists rows. split; [exact E|]. pose proof (H 0%nat) as A0. pose proof (H 1%nat) as A1. pose proof (H 2%nat) as A2. pose proof (H 3%nat) as A3. clear - A0 A1 A2 A3. cbn in *.
    destruct rows as [|[t0 x0 y0] rows]; [destruct A0; discriminate|]. destruct rows as [|[t1 x1 y1] rows]; [destruct A1; discriminate|].
    destruct rows as [|[t2 x2 y2] rows]; [destruct A2; discriminate|]. destruct rows as [|r3 rows]; [|destruct A3; discriminate].
    cbn in *. destruct A0 as [A0 [_ B0]], A1 as [A1 [_ B1]], A2 as [A2 [_ B2]].
    injection A0 as ->. injection A1 as ->. injection A2 as ->. injection B0 as ->. injection B1 as ->. injection B2 as ->. split; reflexivity.
Qed.

(** * C64: tracks near the antimeridian. *)
Theorem C64_clean_result : forall lon, date_line_cleaned lon (clean_180cross lon).
Proof. exact clean_spec. Qed.
Print Assumptions C64_clean_result.
Theorem C64_antimeridian : forall u lon n p, Forall2 reported u lon -> smooth u ->
  tally (fun v => v < 0)%R lon n -> tally (fun v => 0 < v)%R lon p ->
  clean_180cross lon = if (n <? p)%nat then u else map (option_map (fun x => x - 360)%R) u.
Proof.
  intros u lon n p Hr Hs Tn Tp.
  assert (Hm : moved lon (clean_180cross lon)).
  { apply (cleaned_smooth _ _ (clean_spec lon)). intros m Hm. destruct (moved_reported _ _ _ Hr Hm) as [n' [p' [_ [_ [[_ ->]|[_ ->]]]]]]; [exact Hs|].
    apply smooth_shift. exact Hs. }
  destruct (moved_reported _ _ _ Hr Hm) as [n' [p' [Tn' [Tp' H]]]]. rewrite (tally_fun _ _ _ _ Tn Tn'), (tally_fun _ _ _ _ Tp Tp').
  destruct (Nat.ltb_spec n' p') as [Hlt|Hle]; destruct H as [[H1 H2]|[H1 H2]]; try lia; exact H2.
Qed.
Print Assumptions C64_antimeridian.
(** westward across the date line: 179.5, 180, -179.5 (reported), -179 *)
Example C64_case : clean_180cross [Some (359/2); Some 180; Some (-359/2); None; Some (-179)]%R = [Some (-361/2); Some (-180); Some (-359/2); None; Some (-179)]%R.
Proof.
  rewrite (C64_antimeridian [Some (359/2); Some 180; Some (361/2); None; Some 181]%R _ 2 2).
  - cbn. f_equal; [f_equal; lra|]. f_equal; [f_equal; lra|]. f_equal; [f_equal; lra|]. f_equal. f_equal. f_equal. lra.
  - repeat constructor; try lra; cbn; lra.
  - intros [|[|[|[|[|i]]]]] a b Ha Hb; cbn in Ha, Hb; try discriminate; try (destruct i; discriminate); injection Ha as <-; injection Hb as <-; apply Rabs_le; lra.
  - apply ta_no; [lra|]. apply ta_no; [lra|]. apply ta_yes; [lra|]. apply ta_nan. apply ta_yes; [lra|]. constructor.
  - apply ta_yes; [lra|]. apply ta_yes; [lra|]. apply ta_no; [lra|]. apply ta_nan. apply ta_no; [lra|]. constructor.
Qed.
(** no step above a degree is left, and every longitude changes by a multiple of 360 *)
Theorem C64_no_jump_left : forall u lon, Forall2 reported u lon -> smooth u -> smooth (clean_180cross lon) /\
  Forall2 (fun a b => (a = None /\ b = None) \/ exists x y, a = Some x /\ b = Some y /\ (y = x \/ y = x + 360 \/ y = x - 360)%R) lon (clean_180cross lon).
Proof.
  intros u lon Hr Hs. pose proof (count_tally (fun v => v < 0)%R (fun x => gt_b (Some 0%R) x) lon) as Tn. pose proof (count_tally (fun v => 0 < v)%R (fun x => gt_b x (Some 0%R)) lon) as Tp.
  rewrite (C64_antimeridian u lon _ _ Hr Hs (Tn ltac:(intros v; unfold gt_b; destruct (Rlt_dec v 0); split; try tauto; discriminate) eq_refl)
     (Tp ltac:(intros v; unfold gt_b; destruct (Rlt_dec 0 v); split; try tauto; discriminate) eq_refl)).
  destruct (_ <? _)%nat; (split; [first [exact Hs|apply smooth_shift; exact Hs]|]); clear Hs Tn Tp; induction Hr as [|[a|] [b|] u lon H _ IH]; cbn [map option_map]; constructor; try exact IH; try destruct H.
  - right. exists b, a. split; [reflexivity|]. split; [reflexivity|]. lra.
  - left. split; reflexivity.
  - right. exists b, (a - 360)%R. split; [reflexivity|]. split; [reflexivity|]. lra.
  - left. split; reflexivity.
Qed.
Print Assumptions C64_no_jump_left.

Example C64_no_jump_left_case : smooth (clean_180cross [Some (359/2); Some 180; Some (-359/2); Some (-179)]%R).
Proof.
  apply (C64_no_jump_left [Some (359/2); Some 180; Some (361/2); Some 181]%R).
  - repeat constructor; try lra; cbn; lra.
  - intros [|[|[|[|i]]]] a b Ha Hb; cbn in Ha, Hb; try discriminate; try (destruct i; discriminate); injection Ha as <-; injection Hb as <-; apply Rabs_le; lra.
Qed.

(** pairs of jumps are taken for excursions: the middle element becomes a mean *)
Example C64_clean_result_case : clean_180cross [Some (-2); Some (-1/2); Some (1/2)]%R = [Some (-2); Some (-723/4); Some (-719/2)]%R.
Proof.
  set (lon := [Some (-2); Some (-1/2); Some (1/2)]%R).
  pose proof (clean_spec lon) as H.
  assert (M : forall m, moved lon m -> m = [Some (-2); Some (-1/2); Some (-719/2)]%R).
  { intros m [n p Tn Tp Hlt Hm|n p Tn Tp Hle Hm].
    - exfalso. assert (n = 2%nat) by (apply (tally_fun _ _ _ _ Tn); apply ta_yes; [lra|]; apply ta_yes; [lra|]; apply ta_no; [lra|]; constructor).
      assert (p = 1%nat) by (apply (tally_fun _ _ _ _ Tp); apply ta_no; [lra|]; apply ta_no; [lra|]; apply ta_yes; [lra|]; constructor). lia.
    - unfold lon in Hm. inversion Hm as [|a b l l' H1 H2]; subst. inversion H2 as [|a c l m' H3 H4]; subst. inversion H4 as [|a e l m'' H5 H6]; subst. inversion H6; subst.
      inversion H1; subst; [|lra]. inversion H3; subst; [|lra]. inversion H5 as [|v Hv|v w k Hv Hw Hk]; subst; [lra|]. do 3 f_equal. f_equal.
      apply (step180 (1/2) _ _ (-2) k); [lra|reflexivity|]. apply Rabs_def1; lra. }
  assert (J : all_jumps [Some (-2); Some (-1/2); Some (-719/2)]%R [0; 1]%nat).
  { split; [repeat constructor|]. intros i. split.
    - intros [<-|[<-|[]]]; do 2 eexists; (split; [reflexivity|]; split; [reflexivity|]).
      + rewrite Rabs_right; lra.
      + rewrite Rabs_left; lra.
    - intros [a [b [_ [Hb _]]]]. destruct i as [|[|[|i]]]; [left; reflexivity|right; left; reflexivity|discriminate|destruct i; discriminate]. }
  destruct H as [js n Hm Hj Hl|m pairs Hm Hj Hb].
  - exfalso. rewrite (M _ Hm) in Hj. rewrite (all_jumps_fun _ _ _ Hj J) in Hl. cbn in Hl. lia.
  - rewrite (M _ Hm) in Hj, Hb. pose proof (all_jumps_fun _ _ _ Hj J) as Ep.
    destruct pairs as [|[i j] [|[i' j'] pairs]]; try discriminate. cbn in Ep. injection Ep as -> ->.
    destruct Hb as [L [B1 B2]]. destruct (B1 0%nat 1%nat (or_introl eq_refl)) as [_ B3].
    destruct (clean_180cross lon) as [|x0 [|x1 [|x2 [|x3 r]]]]; try discriminate.
    pose proof (B2 0%nat ltac:(intros i j [Ei|[]]; injection Ei as <- <-; lia)) as B0. pose proof (B2 2%nat ltac:(intros i j [Ei|[]]; injection Ei as <- <-; lia)) as B4.
    cbn in B0, B3, B4. injection B0 as ->. injection B4 as ->. injection B3 as ->. do 2 f_equal. f_equal. lra.
Qed.

(** * C65: other jumps. *)
(** A track that leaves Greenwich eastward after a gap of 1.5 degrees. *)
Theorem C65_refuted : exists lon, ~ smooth lon /\
  (forall i a b, nth_error lon i = Some (Some a) -> nth_error lon (S i) = Some (Some b) -> (Rabs (b - a) < 2)%R) /\
  (exists i x y, nth_error lon i = Some (Some x) /\ nth_error (clean_180cross lon) i = Some (Some y) /\ forall k : Z, (y <> x + 360 * IZR k)%R) /\
  (exists i a b, nth_error (clean_180cross lon) i = Some (Some a) /\ nth_error (clean_180cross lon) (S i) = Some (Some b) /\ (100 < Rabs (b - a))%R).
Proof.
  set (lon := [Some (-2); Some (-1/2); Some (1/2)]%R).
  pose proof C64_clean_result_case as E. fold lon in E.
  exists lon. rewrite E. split; [|split; [|split]].
  - intros H. specialize (H 0%nat (-2)%R (-1/2)%R eq_refl eq_refl). rewrite Rabs_right in H; lra.
  - intros [|[|[|i]]] a b Ha Hb; cbn in Ha, Hb; try discriminate; try (destruct i; discriminate); injection Ha as <-; injection Hb as <-; apply Rabs_def1; lra.
  - exists 1%nat, (-1/2)%R, (-723/4)%R. split; [reflexivity|]. split; [reflexivity|]. intros k Hk.
    assert (H : (-1 < IZR k < 0)%R) by lra. destruct H as [Ha Hb]. apply lt_IZR in Hb. assert (k <= -1) by lia. apply IZR_le in H. lra.
  - exists 0%nat, (-2)%R, (-723/4)%R. split; [reflexivity|]. split; [reflexivity|]. rewrite Rabs_left; lra.
Qed.
Print Assumptions C65_refuted.
