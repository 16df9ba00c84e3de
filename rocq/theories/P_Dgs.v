(** Properties C69-C71: DGS readers. *)
From Coq Require Import ZArith QArith Qabs Ascii String Bool Lia Sorted List.
From Verif Require Import M_Py M_Str M_Cal M_Ini M_Nmea M_ReadNav M_Table M_Bgm M_Dgs S_Str S_Cal S_Nmea S_ReadNav S_Table S_Bgm S_Dgs
  L_Base L_Str L_Cal L_Nmea L_Nav2 L_ReadNav L_Dateline L_Num L_Table L_Bgm L_Dgs L_DgsRaw.
Import ListNotations.
Open Scope Z_scope.
Local Notation len := List.length.

(** * C69: Langseth laptop files. *)
(** The table has the 26-field lines in order and the report lists all others; a row without a date is the only error. *)
Theorem C69_rows : forall text lines rows skipped, file_lines text lines -> laptop_lines 1 lines rows skipped ->
  match dgs_laptop_Langseth text with
  | Ok (g, report) => report = skipped /\ exists f, langseth_table rows f /\ dated f g (len rows)
  | Raise e => e = ValueError /\ exists f, langseth_table rows f /\ undated f (len rows)
  end.
Proof.
  intros text lines rows skipped Hl Hs. destruct (langseth_cases text) as [lines' [rows' [skipped' [Hl' [Hs' C]]]]].
  assert (lines' = lines) as -> by (apply readlines_lines in Hl; apply readlines_lines in Hl'; congruence).
  destruct (laptop_lines_fun _ _ _ _ _ _ Hs Hs') as [-> ->]. exact C.
Qed.
Print Assumptions C69_rows.
(** each line is a row or in the report, not both; the report counts the lines from 1 *)
Theorem C69_every_line : forall text, exists lines rows skipped, file_lines text lines /\ laptop_lines 1 lines rows skipped /\
  (len rows + len skipped = len lines)%nat /\ StronglySorted (fun a b => (fst a < fst b)%nat) skipped /\ Forall (fun s => (1 <= fst s <= len lines)%nat) skipped.
Proof.
  intros text. destruct (langseth_cases text) as [lines [rows [skipped [Hl [Hs _]]]]]. exists lines, rows, skipped. split; [exact Hl|]. split; [exact Hs|].
  assert (G : forall n, laptop_lines n lines rows skipped -> (len rows + len skipped = len lines)%nat /\
    StronglySorted (fun a b => (fst a < fst b)%nat) skipped /\ Forall (fun s => (n <= fst s < n + len lines)%nat) skipped).
  { clear. intros n H. induction H as [n|n l ls t r rows skipped Ht Hf Hr _ [I1 [I2 I3]]|n l ls t r rows skipped Ht Hf Hr _ [I1 [I2 I3]]|n l ls rows skipped Ho _ [I1 [I2 I3]]].
    - split; [reflexivity|]. split; constructor.
    - cbn [len]. split; [lia|]. split; [exact I2|]. eapply Forall_impl; [|exact I3]. intros a Ha. cbn beta in *. lia.
    - cbn [len]. split; [lia|]. split.
      + constructor; [exact I2|]. eapply Forall_impl; [|exact I3]. intros a Ha. cbn [fst] in *. lia.
      + constructor; [cbn [fst]; lia|]. eapply Forall_impl; [|exact I3]. intros a Ha. cbn beta in *. lia.
    - cbn [len]. split; [lia|]. split.
      + constructor; [exact I2|]. eapply Forall_impl; [|exact I3]. intros a Ha. cbn [fst] in *. lia.
      + constructor; [cbn [fst]; lia|]. eapply Forall_impl; [|exact I3]. intros a Ha. cbn beta in *. lia. }
  destruct (G _ Hs) as [G1 [G2 G3]]. split; [exact G1|]. split; [exact G2|]. eapply Forall_impl; [|exact G3]. intros a Ha. cbn beta in Ha. lia.
Qed.
Print Assumptions C69_every_line.
(** nothing left: an empty table with all its columns *)
Theorem C69_no_rows : forall text lines skipped, file_lines text lines -> laptop_lines 1 lines [] skipped ->
  dgs_laptop_Langseth text = Ok (map (fun c => (fst c, [])) laptop_fields ++ [(lit "date_time", [])], skipped).
Proof.
  intros text lines skipped Hl Hs. apply readlines_lines in Hl. unfold dgs_laptop_Langseth. rewrite Hl.
  pose proof (langseth_scan_spec lines 1) as Sc. destruct (langseth_scan 1 lines) as [rows' skipped']. destruct (laptop_lines_fun _ _ _ _ _ _ Hs Sc) as [-> ->]. reflexivity.
Qed.
Print Assumptions C69_no_rows.

Definition laptop_line : str := lit "1,9800.25,-2,3,4,5,6,7,8,9,10,11,12,13,14,15,16,17,18,2023,6,15,1,2,3.5,25".
Definition laptop_sample : str :=
  laptop_line ++ [nl] ++ lit "dgsdata 2023 " ++ laptop_line ++ [nl] ++ lit "short,line" ++ [nl] ++ lit "  dgsdata" ++ [nl] ++ lit " " ++ laptop_line.
Example C69_case : exists f t, dgs_laptop_Langseth laptop_sample = Ok (f, [(3%nat, Some 2%nat); (4%nat, None)]) /\
  has_column f (lit "rgrav") (repeat (Num (980025 # 100)) 3) /\ has_column f (lit "second") (repeat (Num (35 # 10)) 3) /\
  has_column f (lit "date_time") (repeat (Time t) 3) /\ (t == 16867909235 # 10)%Q.
Proof.
  do 2 eexists. split; [vm_compute; reflexivity|]. unfold has_column. split; [left; reflexivity|]. split; [do 15 right; left; reflexivity|].
  split; [do 16 right; left; reflexivity|reflexivity].
Qed.
Example C69_case_bad_date : dgs_laptop_Langseth (lit "1,9800.25,-2,3,4,5,6,7,8,9,10,11,12,13,14,15,16,17,18,2023,2,29,1,2,3.5,25") = Raise ValueError.
Proof. vm_compute. reflexivity. Qed.

(** * C70: raw files. *)
Theorem C70_files : forall fsys td iso paths ship scale_ccp, keeps_length td -> keeps_length iso ->
  match read_dgs_raw fsys td iso paths ship scale_ccp with
  | Ok T => paths <> [] /\ exists gs, Forall2 (raw_table fsys td iso ship scale_ccp) paths gs /\ stacked gs T
  | Raise e => (paths = [] /\ e = ValueError) \/
      first_error (fun p => exists g, raw_table fsys td iso ship scale_ccp p g) (raw_path_error fsys td iso ship scale_ccp) paths e
  end.
Proof.
  intros fsys td iso paths ship scale Hk Hi. rewrite raw_unfold.
  assert (C : forall p, match raw_one fsys td iso ship scale p with
    | Ok g => raw_table fsys td iso ship scale p g /\ exists n, table g n | Raise e => raw_path_error fsys td iso ship scale p e end)
    by (intros p; apply raw_one_cases; assumption).
  destruct (mapM (raw_one fsys td iso ship scale) paths) as [gs|e] eqn:E; cbn [bind].
  - apply mapM_Forall2_inv in E.
    assert (H1 : Forall2 (raw_table fsys td iso ship scale) paths gs) by (eapply Forall2_weaken; [|exact E]; intros p g Hg; specialize (C p); rewrite Hg in C; exact (proj1 C)).
    assert (H2 : Forall (fun g => exists n, table g n) gs).
    { clear H1. induction E as [|p g paths gs Hg _ IH]; constructor; [|exact IH]. specialize (C p). rewrite Hg in C. exact (proj2 C). }
    destruct gs as [|g gs].
    + left. inversion H1. split; reflexivity.
    + destruct (concat_frames_stacked (g :: gs) ltac:(discriminate) H2) as [T [ET HT]]. rewrite ET. split; [intros ->; inversion H1|]. exists (g :: gs). split; assumption.
  - right. apply mapM_raise_in in E. destruct E as [l1 [p [l2 [El [Hl Ep]]]]]. exists l1, p, l2. split; [exact El|]. split.
    + eapply Forall_impl; [|exact Hl]. intros q [g Hg]. exists g. specialize (C q). rewrite Hg in C. exact (proj1 C).
    + specialize (C p). rewrite Ep in C. exact C.
Qed.
Print Assumptions C70_files.
(** The flag multiplies the four monitors by 1e-5 and does nothing else. *)
Theorem C70_monitors : forall fsys td iso paths ship U, keeps_length td -> keeps_length iso ->
  read_dgs_raw fsys td iso paths ship false = Ok U ->
  (exists T, read_dgs_raw fsys td iso paths ship true = Ok T /\ rescaled U T) \/
  (read_dgs_raw fsys td iso paths ship true = Raise TypeError /\
   exists p f, In p paths /\ raw_table fsys td iso ship false p f /\ monitor_text f).
Proof.
  intros fsys td iso paths ship U Hk Hi. rewrite !raw_unfold. intros H.
  destruct (mapM (raw_one fsys td iso ship false) paths) as [fs|e] eqn:E; cbn [bind] in H; [|discriminate]. apply mapM_Forall2_inv in E.
  assert (R : (exists gs, mapM (raw_one fsys td iso ship true) paths = Ok gs /\ Forall2 rescaled fs gs) \/
    (mapM (raw_one fsys td iso ship true) paths = Raise TypeError /\ exists p f, In p paths /\ raw_table fsys td iso ship false p f /\ monitor_text f)).
  { clear H. induction E as [|p f paths fs Hp _ IH]; [left; exists []; split; [reflexivity|constructor]|].
    pose proof (raw_one_cases fsys td iso ship false p Hk Hi) as C. rewrite Hp in C. destruct C as [[text [f' [Ht [Hf ->]]]] _].
    pose proof (raw_file_monitors _ _ _ _ _ Hk Hi Hf) as M. pose proof (rescale_cases f' M) as Rs.
    assert (E1 : raw_one fsys td iso ship true p = rescale_all f').
    { unfold raw_one in *. destruct (raw_reader fsys td iso ship p); cbn [bind] in *; [|discriminate]. congruence. }
    cbn [mapM]. rewrite E1. destruct (rescale_all f') as [g|e]; cbn [bind].
    - destruct IH as [[gs [Eg Hg]]|[Eg [q [f [Hq K]]]]]; rewrite Eg; cbn [bind].
      + left. exists (g :: gs). split; [reflexivity|constructor; assumption].
      + right. split; [reflexivity|]. exists q, f. split; [right; exact Hq|exact K].
    - destruct Rs as [-> Rs]. right. split; [reflexivity|]. exists p, f'. split; [left; reflexivity|]. split; [|exact Rs].
      exists text, f'. split; [exact Ht|]. split; [exact Hf|reflexivity]. }
  destruct R as [[gs [Eg Hg]]|[Eg K]]; rewrite Eg; cbn [bind]; [left; exact (concat_rescaled _ _ _ Hg H)|right; split; [reflexivity|exact K]].
Qed.
Print Assumptions C70_monitors.

Definition raw_line : str := lit "$AT1M,800000,2,3,4,5,6,7,100000,200000,300000,400000,12,13,14.5,15.5,16,17,20230615010203".
Definition text_line : str := lit "$AT1M,800000,2,3,4,5,6,7,100000,x,300000,400000,12,13,14.5,15.5,16,17,20230615010203".
Definition unsynced_line : str := lit "2023-06-15T01:02:03Z $AT1M,800000,2,3,4,5,6,7,100000,200000,300000,400000,12,13,14.5,15.5,16,17,1".
Definition raw_files (p : str) : option str :=
  if str_eqb p (lit "a") then Some (raw_line ++ [nl]) else if str_eqb p (lit "b") then Some (raw_line ++ [nl; nl] ++ raw_line)
  else if str_eqb p (lit "t") then Some text_line else if str_eqb p (lit "u") then Some unsynced_line else None.
Definition td_texts (l : list cell) : res (list cell) := Ok (map (fun c => match c with Txt s => Time (inject_Z (Z.of_nat (len s))) | _ => NaN end) l).
Example C70_case : exists T c, read_dgs_raw raw_files td_texts td_texts [lit "a"; lit "b"] (lit "Ride") true = Ok T /\
  has_column T (lit "ve") (repeat (Num c) 3) /\ (c == 2)%Q /\ has_column T (lit "Gravity") (repeat (Num 800000) 3) /\
  has_column T (lit "date_time") (repeat (Time (1686790923000000 # 1000000)) 3).
Proof.
  do 2 eexists. split; [vm_compute; reflexivity|]. unfold has_column. split; [do 9 right; left; reflexivity|]. split; [reflexivity|].
  split; [right; left; reflexivity|do 19 right; left; reflexivity].
Qed.
Example C70_case_errors : read_dgs_raw raw_files td_texts td_texts [lit "a"; lit "t"; lit "z"] (lit "Ride") true = Raise TypeError /\
  read_dgs_raw raw_files td_texts td_texts [lit "a"; lit "t"; lit "z"] (lit "Ride") false = Raise FileNotFoundError /\
  read_dgs_raw raw_files td_texts td_texts [lit "a"] (lit "Thompson") true = Raise ValueError /\
  read_dgs_raw raw_files td_texts td_texts [] (lit "Ride") true = Raise ValueError.
Proof. repeat split; vm_compute; reflexivity. Qed.
Example C70_case_unsynced : exists T, read_dgs_raw raw_files td_texts td_texts [lit "u"] (lit "Ride") false = Ok T /\
  has_column T (lit "date_time") [Time 20] /\ has_column T (lit "timestamp") [Num 1].
Proof. eexists. split; [vm_compute; reflexivity|]. unfold has_column. split; [do 19 right; left; reflexivity|do 18 right; left; reflexivity]. Qed.
Definition ship_files (p : str) : option str :=
  if str_eqb p (lit "Thompson") then Some (lit "06/15/2023,01:02:03.25,$AT1M,800000,2,3,4,5,6,7,100000,200000,300000,400000,12,13,14.5,15.5,16,17")
  else if str_eqb p (lit "Sikuliaq") then Some (lit "# log" ++ [nl] ++ lit "g" ++ [tab] ++ lit "2023-06-15" ++ [tab] ++
    lit "$AT1M_x,1.5,2,3,4,5,6,7,100000,200000,300000,400000,12,13,14.5,-15.5*22" ++ [nl] ++ lit "g" ++ [tab] ++ lit "2023-06-16" ++ [tab] ++ lit "$other" ++ [nl])
  else None.
Example C70_case_ships :
  (exists T c, read_dgs_raw ship_files td_texts td_texts [lit "Thompson"] (lit "Thompson") true = Ok T /\ has_column T (lit "vcc") [Num c] /\ (c == 1)%Q /\
    has_column T (lit "date_time") [Time (1686790923250000 # 1000000)]) /\
  (exists T c, read_dgs_raw ship_files td_texts td_texts [lit "Sikuliaq"] (lit "Sikuliaq") true = Ok T /\ has_column T (lit "rgrav") [Num (15 # 10); NaN] /\
    has_column T (lit "ax") [Num c; NaN] /\ (c == 4)%Q /\ has_column T (lit "lon") [Num (-155 # 10); NaN] /\ has_column T (lit "date_time") [Time 10; Time 10]).
Proof.
  split; do 2 eexists; (split; [vm_compute; reflexivity|]); unfold has_column.
  - split; [do 10 right; left; reflexivity|]. split; [reflexivity|]. do 20 right. left. reflexivity.
  - split; [left; reflexivity|]. split; [do 6 right; left; reflexivity|]. split; [reflexivity|]. split; [do 8 right; left; reflexivity|]. do 9 right. left. reflexivity.
Qed.

(** * C71: which reader. *)
Theorem C71_laptop_files : forall fsys td paths ship fn, keeps_length td -> (forall u p f, fn = Some u -> u p = Ok f -> exists n, table f n) ->
  match read_dgs_laptop fsys td paths ship fn with
  | Ok (Some T) => paths <> [] /\ exists gs, Forall2 (laptop_table fsys td ship fn) paths gs /\ stacked gs T
  | Ok None => fn = None /\ paths <> [] /\ ~ In ship all_laptop_ships
  | Raise e => (paths = [] /\ e = ValueError) \/
      first_error (fun p => exists g, laptop_table fsys td ship fn p g) (laptop_path_error fsys td ship fn) paths e
  end.
Proof.
  intros fsys td paths ship fn Hk Hu. unfold read_dgs_laptop.
  assert (C : forall p, match laptop_reader fsys td ship fn p with
    | Ok (Some g) => laptop_table fsys td ship fn p g /\ exists n, table g n
    | Ok None => fn = None /\ ~ In ship all_laptop_ships
    | Raise e => laptop_path_error fsys td ship fn p e end).
  { intros p. destruct fn as [u|].
    - cbn [laptop_reader]. destruct (u p) as [g|e] eqn:E; cbn [bind]; [split; [exact E|exact (Hu u p g eq_refl E)]|apply lpe_user; exact E].
    - destruct (in_dec (list_eq_dec ascii_dec) ship all_laptop_ships) as [Hs|Hs].
      + destruct (fsys p) as [text|] eqn:Hp.
        * pose proof (laptop_cases fsys td ship p text Hs Hp) as L. destruct (laptop_reader fsys td ship None p) as [[g|]|e]; [|contradiction|].
          -- split; [exists text; split; assumption|]. exact (laptop_file_table _ _ _ _ Hk L).
          -- eapply lpe_content; eassumption.
        * assert (E : laptop_reader fsys td ship None p = Raise FileNotFoundError).
          { unfold laptop_reader, open_text. rewrite Hp. cbn [bind]. unfold all_laptop_ships, laptop_ships in Hs. cbn [map app In] in Hs.
            repeat (destruct Hs as [<-|Hs]; [reflexivity|]). destruct Hs. }
          rewrite E. apply lpe_missing; assumption.
      + assert (E : laptop_reader fsys td ship None p = Ok None).
        { unfold laptop_reader. change (has [lit "Atlantis"; lit "Revelle"; lit "NBP"; lit "Ride"; lit "DGStest"] ship) with (has laptop_ships ship).
          replace (has laptop_ships ship) with false by (symmetry; apply has_false; intros K; apply Hs; apply in_or_app; left; exact K).
          repeat match goal with |- context [str_eqb ship (lit ?n)] => replace (str_eqb ship (lit n)) with false
            by (symmetry; apply str_eqb_neq; intros ->; apply Hs; apply has_spec; reflexivity) end. reflexivity. }
        rewrite E. split; [reflexivity|exact Hs]. }
  assert (K : match collect (laptop_reader fsys td ship fn) paths with
    | Ok (Some gs) => Forall2 (laptop_table fsys td ship fn) paths gs /\ Forall (fun g => exists n, table g n) gs
    | Ok None => fn = None /\ paths <> [] /\ ~ In ship all_laptop_ships
    | Raise e => first_error (fun p => exists g, laptop_table fsys td ship fn p g) (laptop_path_error fsys td ship fn) paths e end).
  { induction paths as [|p paths IH]; [split; constructor|]. cbn [collect]. specialize (C p). destruct (laptop_reader fsys td ship fn p) as [[g|]|e]; cbn [bind].
    - destruct C as [C1 C2]. destruct (collect _ paths) as [[gs|]|e]; cbn [bind option_map].
      + destruct IH as [I1 I2]. split; constructor; assumption.
      + destruct IH as [I1 [I2 I3]]. split; [exact I1|]. split; [discriminate|exact I3].
      + destruct IH as [l1 [q [l2 [El [Hl Hq]]]]]. exists (p :: l1), q, l2. split; [rewrite El; reflexivity|]. split; [constructor; [exists g; exact C1|exact Hl]|exact Hq].
    - destruct C as [C1 C2]. split; [exact C1|]. split; [discriminate|exact C2].
    - exists [], p, paths. split; [reflexivity|]. split; [constructor|exact C]. }
  destruct (collect _ paths) as [[gs|]|e]; cbn [bind gathered]; [|exact K|right; exact K]. destruct K as [K1 K2]. destruct gs as [|g gs].
  - left. inversion K1. split; reflexivity.
  - destruct (concat_frames_stacked (g :: gs) ltac:(discriminate) K2) as [T [ET HT]]. rewrite ET. cbn [bind]. split; [intros ->; inversion K1|]. exists (g :: gs). split; assumption.
Qed.
Print Assumptions C71_laptop_files.
Theorem C71_laptop_minus_999 : forall fsys td paths ship fn,
  read_dgs_laptop fsys td paths ship fn = Ok None <-> fn = None /\ paths <> [] /\ ~ In ship all_laptop_ships.
Proof.
  intros fsys td paths ship fn. unfold read_dgs_laptop. split.
  - intros H. assert (K : forall r, gathered r = Ok None -> r = None) by (intros [l|] G; [cbn [gathered] in G; destruct (concat_frames l); discriminate|reflexivity]).
    destruct (collect (laptop_reader fsys td ship fn) paths) as [r|e] eqn:E; cbn [bind] in H; [|discriminate]. apply K in H. subst r.
    assert (P : exists p, In p paths /\ laptop_reader fsys td ship fn p = Ok None).
    { revert E. clear K. induction paths as [|p paths IH]; [discriminate|]. cbn [collect]. destruct (laptop_reader fsys td ship fn p) as [[g|]|e] eqn:E'; cbn [bind]; intros H.
      - destruct (collect _ paths) as [[l|]|e]; try discriminate. destruct (IH eq_refl) as [q [H1 H2]]. exists q. split; [right; exact H1|exact H2].
      - exists p. split; [left; reflexivity|exact E'].
      - discriminate. }
    destruct P as [p [Hi Hp]]. destruct fn as [u|]; [cbn [laptop_reader] in Hp; destruct (u p); discriminate|]. split; [reflexivity|]. split; [intros ->; destruct Hi|].
    intros Hs. unfold laptop_reader in Hp. unfold all_laptop_ships, laptop_ships in Hs. cbn [map app In] in Hs.
    assert (V : forall r : res frame, (do d <- r; Ok (Some d)) <> Ok None) by (intros []; discriminate).
    assert (V' : forall (t : res str) (g : str -> res frame), (do text <- t; do d <- g text; Ok (Some d)) <> Ok None) by (intros [x|] g; [apply V|discriminate]).
    repeat (destruct Hs as [<-|Hs]; [exact (V' _ _ Hp)|]). destruct Hs.
  - intros [-> [Hn Hs]]. destruct paths as [|p paths]; [congruence|]. cbn [collect].
    assert (E : laptop_reader fsys td ship None p = Ok None).
    { unfold laptop_reader. change (has [lit "Atlantis"; lit "Revelle"; lit "NBP"; lit "Ride"; lit "DGStest"] ship) with (has laptop_ships ship).
      replace (has laptop_ships ship) with false by (symmetry; apply has_false; intros K; apply Hs; apply in_or_app; left; exact K).
      repeat match goal with |- context [str_eqb ship (lit ?n)] => replace (str_eqb ship (lit n)) with false
        by (symmetry; apply str_eqb_neq; intros ->; apply Hs; apply has_spec; reflexivity) end. reflexivity. }
    rewrite E. reflexivity.
Qed.
Print Assumptions C71_laptop_minus_999.
Definition laptop_files (p : str) : option str := if str_eqb p (lit "l") then Some laptop_line else None.
Definition user_reader (p : str) : res frame := if str_eqb p (lit "l") then Ok [(lit "g", [Num 1])] else Raise OverflowError.
Example C71_laptop_case : forall ship, In ship (laptop_ships ++ [lit "Langseth"]) -> exists T,
  read_dgs_laptop laptop_files td_texts [lit "l"; lit "l"] ship None = Ok (Some T) /\ has_column T (lit "lat") [Num 14; Num 14].
Proof.
  intros ship Hs. cbn [laptop_ships map app In] in Hs. repeat (destruct Hs as [<-|Hs]; [eexists; split; [vm_compute; reflexivity|do 8 right; left; reflexivity]|]). destruct Hs.
Qed.
Example C71_laptop_case_others : read_dgs_laptop laptop_files td_texts [lit "l"] (lit "Titanic") None = Ok None /\
  read_dgs_laptop laptop_files td_texts [lit "l"; lit "l"] (lit "Titanic") (Some user_reader) = Ok (Some [(lit "g", [Num 1; Num 1])]) /\
  read_dgs_laptop laptop_files td_texts [lit "l"; lit "m"] (lit "Ride") (Some user_reader) = Raise OverflowError /\
  read_dgs_laptop laptop_files td_texts [lit "l"; lit "m"] (lit "Ride") None = Raise FileNotFoundError /\
  read_dgs_laptop laptop_files td_texts [] (lit "Titanic") None = Raise ValueError.
Proof. repeat split; vm_compute; reflexivity. Qed.
