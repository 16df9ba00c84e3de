(** Property C112: from the files of a cruise to the segments picked from it, and from a segment file into the profile. *)
From Coq Require Import ZArith QArith Qround Reals Qreals Ascii String Bool Sorted Permutation Lra Lia List.
From Verif Require Import S_Bgm S_Dgs P_Dgs M_Py M_Np M_Str S_Str L_Str M_Cal S_Cal L_Cal L_Base S_Base M_Ini M_Corr M_Tide M_Nmea S_Nmea M_ReadNav S_ReadNav M_Table S_Table L_Table M_Bgm M_Dgs S_Corr S_Tide S_Faa
  M_Faa M_Filt S_Filt M_Nan S_Nan L_Nan L_Faa P_Faa P_Filt P_Nan P_Nmea P_ReadNav M_Script S_Script L_Script P_Script M_Meters P_Meters L_Dgs L_Rows M_Cursor S_Cursor M_Seg S_Seg L_Seg P_Seg M_Ext P_Ext M_Line.
Import ListNotations.
Open Scope Z_scope.
Local Notation len := List.length.

(** ** The low pass looks at 479 samples on each side *)
Definition known0 (x : option R) : R := match x with Some v => v | None => 0%R end.
Lemma known0_completes x : completes (map known0 x) x.
Proof. split; [apply map_length|]. intros k v H. rewrite nth_error_map, H. reflexivity. Qed.
Lemma rows_known0 (X x : list (option R)) a b : rows_from_to X a b x -> rows_from_to (map known0 X) a b (map known0 x).
Proof. intros [L V]. split; [rewrite map_length; exact L|]. intros k Hk. rewrite !nth_error_map, V by exact Hk. reflexivity. Qed.
Lemma fb_local h (V v : list R) a b i : rows_from_to V a b v -> (b <= len V)%nat -> (479 <= i)%nat -> (i + 479 < b - a)%nat ->
  forwards_backwards h (reflected v) (Z.of_nat i) = forwards_backwards h (reflected V) (Z.of_nat (a + i)).
Proof.
  intros [L E] Hb Hi Hi'. unfold forwards_backwards. apply Rsum_ext. intros p Hp. apply Rsum_ext. intros q Hq. f_equal.
  unfold reflected. rewrite L.
  assert (C1 : (Z.of_nat i + Z.of_nat p - Z.of_nat q <? 0) = false) by (apply Z.ltb_ge; lia).
  assert (C2 : (Z.of_nat (a + i) + Z.of_nat p - Z.of_nat q <? 0) = false) by (apply Z.ltb_ge; lia).
  assert (C3 : (Z.of_nat i + Z.of_nat p - Z.of_nat q <? Z.of_nat (b - a)) = true) by (apply Z.ltb_lt; lia).
  assert (C4 : (Z.of_nat (a + i) + Z.of_nat p - Z.of_nat q <? Z.of_nat (len V)) = true) by (apply Z.ltb_lt; lia).
  rewrite C1, C2, C3, C4. set (m := Z.to_nat (Z.of_nat i + Z.of_nat p - Z.of_nat q)).
  replace (Z.to_nat (Z.of_nat (a + i) + Z.of_nat p - Z.of_nat q)) with (a + m)%nat by (unfold m; lia).
  assert (Hm : (m < b - a)%nat) by (unfold m; lia). specialize (E m Hm).
  rewrite (nth_error_nth' v 0%R), (nth_error_nth' V 0%R) in E by lia. congruence.
Qed.
Lemma filter_local X Y x y a b i : script_filter_nan X = Ok Y -> script_filter_nan x = Ok y -> rows_from_to X a b x -> (b <= len X)%nat ->
  (479 <= i)%nat -> (i + 479 < b - a)%nat -> nth_error y i = nth_error Y (a + i).
Proof.
  intros EX Ex W Hb Hi Hi'. destruct (C95_missing X) as [SX MX]. destruct (C95_missing x) as [Sx Mx].
  destruct (Nat.le_gt_cases (len X) 1440) as [l|l]; [rewrite (SX l) in EX; discriminate|]. destruct (MX l) as (Y' & EY & LY & NY). rewrite EX in EY. injection EY as <-.
  destruct (Nat.le_gt_cases (len x) 1440) as [l'|l']; [rewrite (Sx l') in Ex; discriminate|]. destruct (Mx l') as (y' & Ey & Ly & Ny). rewrite Ex in Ey. injection Ey as <-.
  destruct C95_values as (h & _ & CV). pose proof W as [L E].
  assert (M : missing y i <-> missing Y (a + i)).
  { rewrite Ny by lia. rewrite NY by lia. unfold missing, near. split.
    - intros (k & Mk & Nk). exists (a + k)%nat. rewrite <- E by lia. split; [exact Mk|lia].
    - intros (k & Mk & Nk). exists (k - a)%nat. rewrite E by lia. replace (a + (k - a))%nat with k by lia. split; [exact Mk|lia]. }
  destruct (nth_error y i) as [[u|]|] eqn:Eu; [|symmetry; apply M; exact Eu|apply nth_error_None in Eu; lia].
  destruct (nth_error Y (a + i)) as [[w|]|] eqn:Ew; [|exfalso; pose proof (proj2 M Ew) as Z; unfold missing in Z; congruence|apply nth_error_None in Ew; lia].
  rewrite (CV _ _ _ _ _ Ex (known0_completes x) Eu), (CV _ _ _ _ _ EX (known0_completes X) Ew). do 2 f_equal.
  apply (fb_local h _ _ a b); [apply rows_known0; exact W|rewrite map_length; exact Hb|exact Hi|exact Hi'].
Qed.

(** ** The table *)
(** C112: the table made from the files of a cruise: all columns of the gravimeter's row, its time, its reading with the bias, the anomaly and
    the full field of C103, the position on the line between the fixes before and after, and the low-passed anomaly. *)
Theorem C112_table : exists h, four_minute_low_pass h /\
  forall argsort fsys td ship tk nav_paths files dgs_paths T us gs bias,
  sorts argsort -> known_ship ship -> talker_for ship (Some (lit "GPGGA")) tk -> Forall2 (provides fsys ship tk None) nav_paths files ->
  read_dgs_laptop fsys td dgs_paths ship None = Ok (Some T) -> meter_table T us gs -> (1440 < len us)%nat ->
  exists nav idx T' faa full rows, read_nav fsys ship nav_paths 1 (Some (lit "GPGGA")) None 0 = Ok (Table nav) /\
    dgs_script argsort fsys td ship (Some (lit "GPGGA")) false nav_paths dgs_paths bias 1 = Ok (T', faa, full) /\
    line_table argsort fsys td ship nav_paths dgs_paths bias = Ok rows /\ time_order us idx /\ len rows = len us /\
    map l_faa rows = faa /\ map l_full rows = full /\
    (forall k, (k < len us)%nat -> missing (map l_filt rows) k <-> exists i, missing faa i /\ near 479 i k) /\
    (forall v k a, completes v faa -> nth_error (map l_filt rows) k = Some (Some a) -> a = forwards_backwards h (reflected v) (Z.of_nat k)) /\
    forall k j r, nth_error idx k = Some j -> nth_error rows k = Some r ->
      Forall2 (fun c x => fst x = fst c /\ nth_error (snd c) j = Some (snd x)) T (l_data r) /\
      l_tsec r = (IZR (nth j us 0%Z) / 1000000)%R /\ l_grav r = Some (Q2R (nth j gs 0%Q) + bias)%R /\
      ((2 <= len nav)%nat -> exists b, bracket (map (fun f => IZR (time f)) nav) (IZR (nth j us 0%Z)) b /\
         forall field new, (field = fix_lon /\ new = l_lon r) \/ (field = fix_lat /\ new = l_lat r) ->
           match nth b (map field nav) None, nth (S b) (map field nav) None with
           | Some p, Some q => exists y, new = Some y /\
               on_line (nth b (map (fun f => IZR (time f)) nav) 0%R) p (nth (S b) (map (fun f => IZR (time f)) nav) 0%R) q (IZR (nth j us 0%Z)) y
           | _, _ => new = None
           end).
Proof.
  destruct C95_values as (h & Hh & CV). exists h. split; [exact Hh|].
  intros argsort fsys td ship tk nav_paths files dgs_paths T us gs bias So Hs Ht Hp Hr M H3.
  destruct (C60_table fsys ship nav_paths 1 (Some (lit "GPGGA")) None 0 tk files R1_neq_R0 (fun _ => Hs) Ht Hp) as (nav & pre & E & St & _).
  destruct (script_meter_ok argsort T us gs So M) as (idx & T' & times & Em & O & Rr & Ft).
  assert (Li : len idx = len us) by (destruct O as [O _]; apply Permutation_length in O; rewrite seq_length in O; exact O).
  assert (Lt : len times = len us). { pose proof (F2_len _ _ _ _ _ Ft) as L. rewrite map_length in L. lia. }
  assert (Aw : Forall (fun t => utcoffset t <> None) times).
  { clear -Ft. remember (map (fun i => nth i us 0) idx) as l eqn:El. clear El. induction Ft as [|i t l ts H _ IH]; constructor; [|exact IH].
    apply utc_of_time in H. apply utc_time_us in H. destruct H as [H _]. congruence. }
  assert (En : script_nav fsys ship (Some (lit "GPGGA")) false nav_paths = Ok (map nav_fix nav)).
  { unfold script_nav. match goal with |- bind ?r _ = _ => replace r with (Ok (Table nav)) by (symmetry; exact E) end. reflexivity. }
  assert (Sn : StronglySorted Rlt (map (fun r => IZR (time r) / 1000000)%R nav)).
  { rewrite <- (map_map time (fun t => IZR t / 1000000)%R). apply (sorted_map _ _ _ Z.lt); [|exact St]. intros a b _ _ H. apply IZR_lt in H. lra. }
  set (rg := map (fun i => Q2R (nth i gs 0%Q)) idx) in Em.
  assert (Q : exists tsec, mapM timestamp times = Ok tsec /\ len tsec = len us /\ forall k j, nth_error idx k = Some j -> nth_error tsec k = Some (IZR (nth j us 0%Z) / 1000000)%R).
  { clear - Ft Lt. rewrite <- Lt. clear Lt. revert times Ft. induction idx as [|i idx IH]; intros times Ft; inversion Ft as [|c d cs ds Hc Ft' E1 E2]; subst.
    - exists []. split; [reflexivity|]. split; [reflexivity|]. intros [|k] j Hk; discriminate.
    - destruct (IH ds Ft') as (tsec & I1 & I2 & I3). apply utc_of_time in Hc. apply utc_time_us in Hc. destruct Hc as [Hc Hc'].
      exists (IZR (nth i us 0%Z) / 1000000 :: tsec)%R. split; [cbn [mapM]; unfold timestamp at 1; rewrite Hc, Hc'; cbn [bind]; rewrite I1; reflexivity|].
      split; [cbn [len]; rewrite I2; reflexivity|]. intros [|k] j Hk; cbn [nth_error] in *; [congruence|apply I3; exact Hk]. }
  destruct Q as (tsec & Ets & Lts & Vts).
  set (g := map (fun x => nf2 Rplus x (K bias)) (map Some rg)).
  set (lon := map (interp1d (map f_time (map nav_fix nav)) (map f_lon (map nav_fix nav))) tsec). set (lat := map (interp1d (map f_time (map nav_fix nav)) (map f_lat (map nav_fix nav))) tsec).
  assert (Lg : len g = len us) by (unfold g, rg; rewrite !map_length; exact Li). assert (Lo : len lon = len us) by (unfold lon; rewrite map_length; exact Lts).
  assert (La : len lat = len us) by (unfold lat; rewrite map_length; exact Lts).
  destruct (C94_missing g lon lat times 1 (len us) Lg Lo La Lt ltac:(lia) Aw) as (faa & full & Ec & Lf & Lu & _).
  destruct (proj2 (C95_missing faa) ltac:(lia)) as (ffaa & Ef & Lff & Mf).
  set (mk := fun k => Line (frame_row T' k) (nth k tsec 0%R) (nth k g None) (nth k lon None) (nth k lat None) (nth k faa None) (nth k full None) (nth k ffaa None)).
  set (rows := map mk (seq 0 (len tsec))).
  assert (Lr : len rows = len us) by (unfold rows; rewrite map_length, seq_length; exact Lts).
  assert (Vr : forall k r, nth_error rows k = Some r -> (k < len us)%nat /\ r = mk k).
  { intros k r H. assert (Hk : (k < len us)%nat) by (rewrite <- Lr; apply nth_error_Some; congruence). split; [exact Hk|]. unfold rows in H. rewrite nth_error_map in H.
    rewrite (nth_error_nth' (seq 0 (len tsec)) 0%nat), seq_nth in H by (rewrite ?seq_length; lia). cbn in H. congruence. }
  assert (Col : forall (f : line_row -> option R) (l : list (option R)), len l = len us -> (forall k, f (mk k) = nth k l None) -> map f rows = l).
  { intros f l Ll Hf. apply nth_ext with (d := None) (d' := None); [rewrite map_length; lia|]. rewrite map_length. intros k Hk. unfold rows. rewrite map_map.
    rewrite (map_ext _ _ (fun k => Hf k)). rewrite (nth_indep _ None ((fun k => nth k l None) (len us))) by (rewrite map_length, seq_length; lia).
    rewrite map_nth with (f := fun k => nth k l None). rewrite seq_nth by lia. reflexivity. }
  assert (Efa : map l_faa rows = faa) by (apply Col; [exact Lf|reflexivity]). assert (Efu : map l_full rows = full) by (apply Col; [exact Lu|reflexivity]).
  assert (Eff : map l_filt rows = ffaa) by (apply Col; [lia|reflexivity]).
  exists nav, idx, T', faa, full, rows. split; [exact E|]. split.
  { unfold dgs_script. rewrite En. cbn [bind]. rewrite Hr, Em. cbn [bind script_anomaly]. unfold faa_script_nan. rewrite Ets. cbn [bind sync]. fold g. fold lon. fold lat.
    match goal with |- bind ?r _ = _ => replace r with (Ok (faa, full)) by (symmetry; exact Ec) end. reflexivity. }
  split.
  { unfold line_table. rewrite En. cbn [bind]. rewrite Hr, Em. cbn [bind]. rewrite Ets. cbn [bind sync]. fold g. fold lon. fold lat.
    match goal with |- bind ?r _ = _ => replace r with (Ok (faa, full)) by (symmetry; exact Ec) end. cbn [bind]. rewrite Ef. reflexivity. }
  split; [exact O|]. split; [exact Lr|]. split; [exact Efa|]. split; [exact Efu|]. rewrite Eff. split; [intros k Hk; apply Mf; lia|]. split; [intros v k a Cv Ha; exact (CV _ _ _ _ _ Ef Cv Ha)|].
  intros k j r Hj Hrk. destruct (Vr k r Hrk) as [Hk ->]. unfold mk; cbn [l_data l_tsec l_grav l_lon l_lat]. split.
  { unfold frame_row. clear - Rr Hj. induction Rr as [|c c' T T' [H1 H2] _ IH]; cbn [map]; constructor; [|exact IH]. cbn [fst snd]. split; [exact H1|].
    clear - H2 Hj. revert k Hj. induction H2 as [|i x idx l Hi _ IH]; intros [|k] Hj; try discriminate; cbn [nth_error nth] in *; [congruence|apply IH; exact Hj]. }
  split; [apply nth_error_nth; apply Vts; exact Hj|]. split; [apply nth_error_nth; unfold g, rg; rewrite !nth_error_map, Hj; reflexivity|].
  intros H2. assert (A : ascending (map f_time (map nav_fix nav))) by (rewrite map_map; apply sorted_ascending; exact Sn).
  destruct (C79_fixes_used (map f_time (map nav_fix nav)) (IZR (nth j us 0%Z) / 1000000) A ltac:(rewrite !map_length; exact H2)) as (b & Bb & _).
  assert (Et : map f_time (map nav_fix nav) = map (fun t => IZR t / 1000000)%R (map time nav)) by (rewrite !map_map; reflexivity).
  assert (Ez : map (fun r => IZR (time r)) nav = map IZR (map time nav)) by (rewrite map_map; reflexivity).
  exists b. rewrite Ez. split; [apply bracket_scaled; rewrite <- Et; exact Bb|].
  assert (X : forall ys, match nth b ys None, nth (S b) ys None with
           | Some p, Some q => exists y, interp1d (map f_time (map nav_fix nav)) ys (IZR (nth j us 0%Z) / 1000000) = Some y /\
               on_line (nth b (map IZR (map time nav)) 0%R) p (nth (S b) (map IZR (map time nav)) 0%R) q (IZR (nth j us 0%Z)) y
           | _, _ => interp1d (map f_time (map nav_fix nav)) ys (IZR (nth j us 0%Z) / 1000000) = None end).
  { intros ys. destruct (C79_interpolated (map f_time (map nav_fix nav)) ys _ b A Bb) as [I1 I2].
    destruct (nth b ys None) as [p|] eqn:Ep; [|apply I1; left; reflexivity]. destruct (nth (S b) ys None) as [q|] eqn:Eq; [|apply I1; right; reflexivity].
    destruct (I2 p q eq_refl eq_refl) as (y & Ey & Hl & _). exists y. split; [exact Ey|]. unfold on_line in *. rewrite Et in Hl. destruct Bb as [Hb _]. rewrite !map_length in Hb.
    assert (X : forall m, (m < len nav)%nat -> nth m (map (fun t => IZR t / 1000000)%R (map time nav)) 0%R = (nth m (map IZR (map time nav)) 0 / 1000000)%R).
    { intros m Hm. rewrite (nth_error_nth _ m 0%R (x := (IZR (nth m (map time nav) 0%Z) / 1000000)%R)) by (rewrite nth_error_map, (nth_error_nth' (map time nav) 0) by (rewrite map_length; exact Hm); reflexivity).
      rewrite (nth_error_nth (map IZR (map time nav)) m 0%R (x := IZR (nth m (map time nav) 0))) by (rewrite nth_error_map, (nth_error_nth' (map time nav) 0) by (rewrite map_length; exact Hm); reflexivity). reflexivity. }
    rewrite !X in Hl by lia. nra. }
  assert (Pos : forall ys, nth k (map (interp1d (map f_time (map nav_fix nav)) ys) tsec) None = interp1d (map f_time (map nav_fix nav)) ys (IZR (nth j us 0%Z) / 1000000)).
  { intros ys. apply nth_error_nth. rewrite nth_error_map, (Vts k j Hj). reflexivity. }
  intros field new [[-> ->]|[-> ->]].
  - unfold lon. rewrite Pos. rewrite (map_map nav_fix f_lon). exact (X (map fix_lon nav)).
  - unfold lat. rewrite Pos. rewrite (map_map nav_fix f_lat). exact (X (map fix_lat nav)).
Qed.
Print Assumptions C112_table.

(** ** The first line of a segment file *)
Lemma selected_app (A : Type) (P : A -> Prop) l1 l2 r : selected P (l1 ++ l2) r -> exists r1 r2, r = r1 ++ r2 /\ selected P l1 r1 /\ selected P l2 r2.
Proof.
  revert r. induction l1 as [|a l1 IH]; intros r H; cbn [app] in H.
  - exists [], r. split; [reflexivity|]. split; [constructor|exact H].
  - inversion H as [|a' l r' Pa H' E1 E2|a' l r' Pa H' E1 E2]; subst; destruct (IH _ H') as (r1 & r2 & -> & S1 & S2).
    + exists (a :: r1), r2. split; [reflexivity|]. split; [constructor; assumption|exact S2].
    + exists r1, r2. split; [reflexivity|]. split; [constructor; assumption|exact S2].
Qed.
Lemma selected_all (A : Type) (P : A -> Prop) l r : Forall P l -> selected P l r -> r = l.
Proof. intros F H. induction H as [|a l r Pa H IH|a l r Pa H IH]; inversion F; subst; [reflexivity|f_equal; auto|contradiction]. Qed.
Lemma distinct_known l : forall rest d, NoDup l -> Forall (fun c => In c l) rest -> distinct (l ++ rest) d -> d = l.
Proof.
  induction l as [|c l IH]; intros rest d N F H.
  - destruct rest as [|x rest]; [cbn in H; inversion H; reflexivity|inversion F as [|? ? []]].
  - cbn [app] in H. inversion H as [|c' l' r d' S D E1 E2]; subst. f_equal. inversion N as [|? ? Nc N']; subst.
    destruct (selected_app _ _ _ _ _ S) as (r1 & r2 & -> & S1 & S2). apply selected_all in S1; [|apply Forall_forall; intros x Hx ->; contradiction]. subst r1.
    apply (IH r2 d' N'); [|exact D]. clear - S2 F. apply Forall_forall. intros x Hx. apply (selected_In _ _ _ _ x S2) in Hx. destruct Hx as [Hx Hc].
    rewrite Forall_forall in F. destruct (F x Hx) as [->|Hl]; [contradiction|exact Hl].
Qed.
Lemma stacked_names gs T l : gs <> [] -> NoDup l -> Forall (fun g => map fst g = l) gs -> stacked gs T -> map fst T = l.
Proof.
  intros Hg N F [D _]. destruct gs as [|g gs]; [contradiction|]. inversion F as [|? ? Hf F']; subst. cbn [map concat] in D. apply (distinct_known _ _ _ N) in D; [exact D|].
  apply Forall_forall. intros x Hx. apply in_concat in Hx. destruct Hx as (y & Hy & Hx). apply in_map_iff in Hy. destruct Hy as (g' & <- & Hg'). rewrite Forall_forall in F'. rewrite <- (F' g' Hg'). exact Hx.
Qed.
(** The columns of the files: date_time is the seventeenth, which RMBA_calc.py reads as a date, on all ships but Thompson, whose files have fifteen columns. *)
Definition new_names : list str := map lit ["tsec"; "grav"; "lon_new"; "lat_new"; "faa"; "full_field"; "faa_filt"]%string.
Lemma laptop_file_names td ship text g : laptop_file td ship text g ->
  (ship <> lit "Thompson" /\ map fst g = map fst laptop_fields ++ [lit "date_time"]) \/ (ship = lit "Thompson" /\ map fst g = map fst thompson_fields ++ [lit "date_time"]).
Proof.
  intros H. inversion H as [sh tx rows f g' Hs _ _ C (ts & -> & _)|tx rows f g' _ _ C (ts & -> & _)|tx rows f st ts _ _ C _ _|tx lines rows sk f g' _ _ C (ts & -> & _)]; subst; clear H.
  - left. split; [intros ->; cbn in Hs; repeat destruct Hs as [Hs|Hs]; try discriminate Hs; exact Hs|]. rewrite map_app, (frame_names _ _ _ C). reflexivity.
  - left. split; [discriminate|]. rewrite map_app, (frame_names _ _ _ C). reflexivity.
  - right. split; [reflexivity|]. rewrite map_app, (frame_names _ _ _ C). reflexivity.
  - left. split; [discriminate|]. rewrite map_app, (langseth_names _ _ C). reflexivity.
Qed.
Theorem C112_names : forall argsort fsys td ship nav_paths dgs_paths bias rows r, keeps_length td ->
  line_table argsort fsys td ship nav_paths dgs_paths bias = Ok rows -> In r rows ->
  (ship <> lit "Thompson" -> line_names r = map fst laptop_fields ++ lit "date_time" :: new_names /\ nth_error (line_names r) 16 = Some (lit "date_time")) /\
  (ship = lit "Thompson" -> line_names r = map fst thompson_fields ++ lit "date_time" :: new_names /\ nth_error (line_names r) 16 = None).
Proof.
  intros argsort fsys td ship nav_paths dgs_paths bias rows r Kt E I. unfold line_table in E.
  destruct (script_nav _ _ _ _ _) as [nav|]; [|discriminate E]. cbn [bind] in E. pose proof (C71_laptop_files fsys td dgs_paths ship None Kt ltac:(discriminate)) as C.
  destruct (read_dgs_laptop fsys td dgs_paths ship None) as [[T|]|]; cbn [script_meter bind] in E; [|discriminate E|discriminate E].
  destruct C as (Hp & gs & F & St).
  unfold script_meter in E. cbn [bind] in E. unfold sort_values in E. destruct (get_column T (lit "date_time")) as [col|]; [|discriminate E]. cbn [bind] in E.
  set (T' := take_rows (sort_order argsort col) T) in E. destruct (get_column T' (lit "date_time")) as [dt|]; [|discriminate E]. cbn [bind] in E.
  destruct (mapM cell_time dt) as [times|]; [|discriminate E]. cbn [bind] in E. destruct (get_column T' (lit "rgrav")) as [gc|]; [|discriminate E]. cbn [bind] in E.
  destruct (mapM reading gc) as [rg|]; [|discriminate E]. cbn [bind] in E. destruct (mapM timestamp times) as [tsec|]; [|discriminate E]. cbn [bind] in E. destruct (sync nav tsec) as [lon lat].
  destruct (corrected_nan _ _ _ _ _) as [[faa full]|]; [|discriminate E]. cbn [bind] in E. destruct (script_filter_nan faa) as [ffaa|]; [|discriminate E]. cbn [bind] in E.
  injection E as <-. apply in_map_iff in I. destruct I as (k & <- & _). unfold line_names, frame_row. cbn [l_data]. rewrite map_map. cbn [fst].
  unfold T', take_rows. rewrite map_map. cbn [fst]. change (map (fun x : str * list cell => fst x) T) with (map fst T).
  assert (Hg : gs <> []) by (intros ->; inversion F; subst; contradiction).
  assert (Fg : Forall (fun g => (ship <> lit "Thompson" /\ map fst g = map fst laptop_fields ++ [lit "date_time"]) \/ (ship = lit "Thompson" /\ map fst g = map fst thompson_fields ++ [lit "date_time"])) gs).
  { clear - F. induction F as [|p g ps gs (text & _ & Hf) _ IH]; constructor; [exact (laptop_file_names _ _ _ _ Hf)|exact IH]. }
  assert (N : forall l, nodupb l = true -> Forall (fun g => map fst g = l) gs -> map fst T = l) by (intros l Hl Fl; apply (stacked_names gs T l Hg (nodupb_ok _ Hl) Fl St)).
  split; intros Hship.
  - rewrite (N (map fst laptop_fields ++ [lit "date_time"])); [split; reflexivity|reflexivity|].
    clear - Fg Hship. induction Fg as [|g gs [[_ H]|[H _]] _ IH]; constructor; [exact H|exact IH|contradiction|exact IH].
  - rewrite (N (map fst thompson_fields ++ [lit "date_time"])); [split; reflexivity|reflexivity|].
    clear - Fg Hship. induction Fg as [|g gs [[H _]|[_ H]] _ IH]; constructor; [contradiction|exact IH|exact H|exact IH].
Qed.
Print Assumptions C112_names.

(** ** The files of the segments *)
(** The accepted picks give the files, each with the rows between its two picks of the table without its first 480 and last 240 rows. *)
Theorem C112_files : forall argsort fsys td ship tk nav_paths files dgs_paths T us gs bias minx maxy passes evs d answer,
  sorts argsort -> known_ship ship -> talker_for ship (Some (lit "GPGGA")) tk -> Forall2 (provides fsys ship tk None) nav_paths files ->
  read_dgs_laptop fsys td dgs_paths ship None = Ok (Some T) -> meter_table T us gs -> (1440 < len us)%nat -> accepted passes evs ->
  exists rows table stack D, line_table argsort fsys td ship nav_paths dgs_paths bias = Ok rows /\ without_edges rows table /\
    picks (map line_view table) evs stack /\
    line_script argsort fsys td ship nav_paths dgs_paths bias minx maxy passes d answer = Some (Ok D) /\
    (forall j a b, segment stack j a b -> (a <= b < len table)%nat) /\
    (forall j a b name, segment stack j a b -> segment_file j a b name -> exists c, lookup D name = Some c /\ rows_from_to table a b c) /\
    (forall name, (forall j a b, segment stack j a b -> ~ segment_file j a b name) ->
       (answer = lit "c" -> lookup D name = None) /\ (answer <> lit "c" -> lookup D name = lookup d name)).
Proof.
  intros argsort fsys td ship tk nav_paths files dgs_paths T us gs bias minx maxy passes evs d answer So Hs Ht Hp Hr M H3 Ha.
  destruct C112_table as (h & _ & X). destruct (X argsort fsys td ship tk nav_paths files dgs_paths T us gs bias So Hs Ht Hp Hr M H3) as (nav & idx & T' & faa & full & rows & _ & _ & E & _ & L & _).
  assert (W : without_edges rows (trim rows)) by (apply trim_without_edges; reflexivity).
  assert (N : trim rows <> []) by (intros Z; destruct W as [W _]; rewrite Z in W; cbn [len] in W; lia).
  destruct (C77_files _ line_view rows (trim rows) (map (fun r => shown (l_filt r)) rows) minx maxy passes evs d answer W N Ha) as (stack & D & P & EP & Q).
  exists rows, (trim rows), stack, D. split; [exact E|]. split; [exact W|]. split; [exact P|]. split; [unfold line_script; rewrite E; exact EP|exact Q].
Qed.
Print Assumptions C112_files.

(** ** From a file into the profile *)
Lemma line_filtered argsort fsys td ship nav_paths dgs_paths bias T' faa full rows :
  dgs_script argsort fsys td ship (Some (lit "GPGGA")) false nav_paths dgs_paths bias 1 = Ok (T', faa, full) ->
  line_table argsort fsys td ship nav_paths dgs_paths bias = Ok rows -> map l_faa rows = faa ->
  script_filter_nan (map l_faa rows) = Ok (map l_filt rows).
Proof.
  intros E1 E2 Hf. unfold dgs_script in E1. unfold line_table in E2.
  destruct (script_nav _ _ _ _ _) as [nav|]; [|discriminate E2]. cbn [bind] in E1, E2. destruct (script_meter _ _) as [[[data times] rg]|]; [|discriminate E2]. cbn [bind script_anomaly] in E1, E2.
  unfold faa_script_nan in E1. destruct (mapM timestamp times) as [tsec|]; [|discriminate E2]. cbn [bind] in E1, E2. destruct (sync nav tsec) as [lon lat].
  match type of E2 with bind ?r _ = _ => match type of E1 with bind ?r' _ = _ => change r' with r in E1; destruct r as [[f u]|]; [|discriminate E2] end end. cbn [bind fst snd] in E1, E2.
  injection E1 as _ Ef _. subst f. destruct (script_filter_nan faa) as [ffaa|] eqn:EF; [|discriminate E2]. cbn [bind] in E2. injection E2 as E2.
  rewrite Hf, EF. f_equal. assert (Lr : len rows = len faa) by (rewrite <- Hf, map_length; reflexivity).
  assert (Lt : len tsec = len faa) by (rewrite <- Lr, <- E2, map_length, seq_length; reflexivity).
  assert (Lff : len ffaa = len faa).
  { destruct (C95_missing faa) as [S1 S2]. destruct (Nat.le_gt_cases (len faa) 1440) as [l|l]; [rewrite (S1 l) in EF; discriminate EF|]. destruct (S2 l) as (y & Ey & Ly & _). rewrite EF in Ey. congruence. }
  rewrite <- E2, map_map. cbn [l_filt]. rewrite Lt, <- Lff. symmetry. clear. induction ffaa as [|x l IH]; [reflexivity|]. cbn [len seq map nth]. f_equal.
  rewrite <- seq_shift, map_map. exact IH.
Qed.
Lemma finite_known (f : line_row -> option R) (g : point -> R) c pts : Forall2 (fun r p => f r = Some (g p)) c pts -> finite (map f c) = Some (map g pts).
Proof. induction 1 as [|r p c pts H _ IH]; [reflexivity|]. cbn [map finite fold_right]. unfold finite in IH. rewrite H, IH. reflexivity. Qed.
Lemma extended_middle g pts m line : extended_line g pts = Ok (m, line) -> exists a b, line = a ++ pts ++ b /\ len a = m.
Proof.
  intros E. unfold extended_line in E. destruct pts as [|p0 pts]; [discriminate|]. destruct (len (p0 :: pts) <=? 1)%nat; [discriminate|]. destruct (Req_EM_T _ 0); [destruct (Req_EM_T _ 0); discriminate|].
  pose proof (f_equal (fun r => match r with Ok x => fst x | Raise _ => 0%nat end) E) as E1. pose proof (f_equal (fun r => match r with Ok x => snd x | Raise _ => [] end) E) as E2. cbn [fst snd] in E1, E2.
  eexists _, _. split; [symmetry; exact E2|]. rewrite rev_length, map_length, seq_length. exact E1.
Qed.
(** Where the segment file has its own positions, the profile has the low-passed anomaly of the whole cruise at these positions
    (nothing of the ends of the segment), 480 samples from its ends; all other values are kept. *)
Theorem C112_profile : forall argsort fsys td ship tk nav_paths files dgs_paths T us gs bias,
  sorts argsort -> known_ship ship -> talker_for ship (Some (lit "GPGGA")) tk -> Forall2 (provides fsys ship tk None) nav_paths files ->
  read_dgs_laptop fsys td dgs_paths ship None = Ok (Some T) -> meter_table T us gs -> (1440 < len us)%nat ->
  exists rows, line_table argsort fsys td ship nav_paths dgs_paths bias = Ok rows /\
  forall table a b c g pts m line t, without_edges rows table -> (b <= len table)%nat -> rows_from_to table a b c ->
    Forall2 (fun r p => l_lat r = Some (fst p) /\ l_lon r = Some (snd p)) c pts -> extended_line g pts = Ok (m, line) -> len t = len line ->
    ((b - a <= 1440)%nat -> rmba_line g c t = Some (Raise ValueError)) /\
    ((1440 < b - a)%nat -> exists r, rmba_line g c t = Some (Ok (m, line, r)) /\ len r = len t /\
       (forall i, (480 <= i)%nat -> (i + 480 < b - a)%nat -> nth_error r (m + i) = option_map l_filt (nth_error c i) /\ nth_error line (m + i) = nth_error pts i) /\
       forall k, (k < m + 480)%nat \/ (m + (b - a) <= k + 480)%nat -> nth_error r k = nth_error t k).
Proof.
  intros argsort fsys td ship tk nav_paths files dgs_paths T us gs bias So Hs Ht Hp Hr M H3.
  destruct C112_table as (h & _ & X). destruct (X argsort fsys td ship tk nav_paths files dgs_paths T us gs bias So Hs Ht Hp Hr M H3) as (nav & idx & T' & faa & full & rows & _ & Ed & E & _ & L & Hf & _).
  pose proof (line_filtered _ _ _ _ _ _ _ _ _ _ _ Ed E Hf) as EF. clear X Ed. exists rows. split; [exact E|].
  intros table a b c g pts m line t [Lt Wt] Hb [Lc Wc] Fp Ee Hl.
  assert (Ec : combine (map fst pts) (map snd pts) = pts) by (clear; induction pts as [|[x y] pts IH]; [reflexivity|cbn; f_equal; exact IH]).
  assert (F1 : finite (map l_lat c) = Some (map fst pts)) by (apply finite_known; clear - Fp; induction Fp as [|? ? ? ? [? ?] _ IH]; constructor; assumption).
  assert (F2 : finite (map l_lon c) = Some (map snd pts)) by (apply finite_known; clear - Fp; induction Fp as [|? ? ? ? [? ?] _ IH]; constructor; assumption).
  assert (Lp : len pts = (b - a)%nat) by (rewrite <- Lc; clear - Fp; induction Fp; cbn [len]; congruence).
  unfold rmba_line. rewrite F1, F2, Ec, Ee. cbn [bind fst snd]. unfold embed_nan.
  destruct (C95_missing (map l_faa c)) as [S1 S2]. rewrite map_length, Lc in S1, S2. split; intros Hn; [rewrite (S1 Hn); reflexivity|].
  destruct (S2 Hn) as (y & Ey & Ly & _). rewrite Ey. cbn [bind].
  destruct (extended_middle _ _ _ _ Ee) as (u & w & -> & <-). rewrite !app_length in Hl. assert (Hl2 : len t = (len u + ((b - a) + len w))%nat) by (rewrite <- Lp; exact Hl). clear Hl. rename Hl2 into Hl.
  assert (Lv : len (slice_neg y script_taps script_taps) = (b - a - 960)%nat) by (unfold slice_neg, script_taps; rewrite slice_length, Ly; lia).
  unfold loc_assign_nan. rewrite Lv. unfold script_taps at 1 2 3. replace (Nat.min (len t) (len u + 480 + (b - a - 960)) - (len u + 480) =? b - a - 960)%nat with true by (symmetry; apply Nat.eqb_eq; lia). cbn [bind].
  eexists. split; [reflexivity|]. split; [rewrite map_length, seq_length; reflexivity|].
  assert (W : rows_from_to (map l_faa rows) (480 + a) (480 + b) (map l_faa c)).
  { split; [rewrite map_length; lia|]. intros k Hk. rewrite !nth_error_map, Wc by lia. rewrite Wt by lia. replace (480 + (a + k))%nat with (480 + a + k)%nat by lia. reflexivity. }
  assert (At : forall k, (k < len t)%nat -> forall f : nat -> option R, nth_error (map f (seq 0 (len t))) k = Some (f k)).
  { intros k Hk f. rewrite nth_error_map, (nth_error_nth' _ 0%nat), seq_nth by (rewrite ?seq_length; lia). reflexivity. }
  split.
  - intros i Hi Hi'. split.
    + rewrite At by lia. unfold script_taps. replace (len u + 480 <=? len u + i)%nat with true by (symmetry; apply Nat.leb_le; lia).
      replace (len u + i <? len u + 480 + (b - a - 960))%nat with true by (symmetry; apply Nat.ltb_lt; lia). cbn [andb].
      unfold slice_neg. rewrite nth_slice by (rewrite ?Ly; lia). replace (480 + (len u + i - (len u + 480)))%nat with i by lia.
      pose proof (filter_local _ _ _ _ _ _ i EF Ey W ltac:(rewrite map_length; lia) ltac:(lia) ltac:(lia)) as Z.
      rewrite (nth_error_nth' y None) in Z by lia. rewrite Z, nth_error_map, Wc, Wt by lia. replace (480 + (a + i))%nat with (480 + a + i)%nat by lia. reflexivity.
    + unfold point in *. rewrite nth_error_app2 by lia. rewrite nth_error_app1 by lia. f_equal. lia.
  - intros k Hk. destruct (Nat.lt_ge_cases k (len t)) as [Hkt|Hkt]; [|rewrite !(proj2 (nth_error_None _ _)) by (rewrite ?map_length, ?seq_length; lia); reflexivity].
    rewrite At by exact Hkt. rewrite (nth_error_nth' t None) by exact Hkt. f_equal. unfold script_taps.
    destruct (Nat.leb_spec (len u + 480) k) as [H1|H1]; [|reflexivity]. destruct (Nat.ltb_spec k (len u + 480 + (b - a - 960))) as [H2|H2]; [lia|reflexivity].
Qed.
Print Assumptions C112_profile.
(** A case is in P_LineCase.v. *)
