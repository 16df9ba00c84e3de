(** Property C116: the profile of RMBA_calc.py, from the rows of a segment and the file of tracked values to the crustal thickness. *)
From Coq Require Import ZArith QArith Reals Qreals Lra Lia Ascii String Arith Bool List.
From Verif Require Import M_Py M_Np M_Str M_Ini M_Table M_Dgs M_Faa M_Nan M_Script M_Filt M_CC M_Four M_Ext M_Line M_Rmba M_Thick M_Ccp M_Profile.
From Verif Require Import S_Base S_Str S_Table S_Filt S_Crust S_Faa S_Rmba S_Thick S_Profile S_Nan.
From Verif Require Import L_Base L_Np L_Str L_Num L_Table L_Faa P_Nan P_Ext P_Rmba P_Thick P_Script P_Line L_Rows L_Script P_Meters.
Import ListNotations.
Open Scope R_scope.
Local Notation len := List.length.

(** ** Reading the tracked values *)
Lemma tracked_column k rows col : tracked k rows col -> mapM reading (infer_column (field_column k rows)) = Ok col.
Proof.
  intros H. unfold infer_column, field_column.
  assert (A : forallb (fun s => is_na s || is_some (numeral s)) (map (fun r => nth k r []) rows) = true).
  { induction H as [|r v rows col (s & F & C) _ IH]; [reflexivity|]. cbn [map forallb]. rewrite IH, andb_true_r.
    pose proof (field_at_fun _ _ _ F) as E. change (@nth (list ascii) k r [] = s) in E. rewrite E.
    destruct C as [[M _]|[M (q & N & _)]]; [rewrite (proj2 (is_na_spec s) M); reflexivity|]. apply numeral_value in N. destruct N as (q' & -> & _). apply orb_true_r. }
  rewrite A. clear A. induction H as [|r v rows col (s & F & C) _ IH]; [reflexivity|]. cbn [map mapM]. rewrite IH. pose proof (field_at_fun _ _ _ F) as E. change (@nth (list ascii) k r [] = s) in E. rewrite E.
  destruct C as [[M ->]|[M (q & N & ->)]]; [rewrite (proj2 (is_na_spec s) M); reflexivity|]. rewrite (proj2 (is_na_false s) M).
  apply numeral_value in N. destruct N as (q' & -> & Eq). cbn [reading bind]. rewrite (Qeq_eqR _ _ Eq). reflexivity.
Qed.
Lemma track_read text lon lat dep faa sed age : track_file text lon lat dep faa sed age ->
  exists t, read_track text = Ok t /\ track_column t (lit "lon") = Some (map Some lon) /\ track_column t (lit "lat") = Some (map Some lat) /\
    track_column t (lit "dep") = Some dep /\ track_column t (lit "faa") = Some faa /\ track_column t (lit "sed") = Some sed /\ track_column t (lit "age") = Some age /\
    len lat = len lon /\ len dep = len lon /\ len faa = len lon /\ len sed = len lon /\ len age = len lon.
Proof.
  intros (rows & Hc & W & T0 & T1 & T2 & T3 & T4 & T5). apply csv_rows_file in Hc. unfold read_track. rewrite Hc. unfold read_csv.
  change (map snd (numbered track_names)) with [0; 1; 2; 3; 4; 5]%nat. rewrite (check_columns_ok _ _ W). cbn [bind].
  assert (Ln : forall k l, tracked k rows l -> len l = len rows) by (intros k l; apply F2_len).
  pose proof (Ln _ _ T0) as L0. rewrite map_length in L0. pose proof (Ln _ _ T1) as L1. rewrite map_length in L1.
  apply Ln in T2 as L2. apply Ln in T3 as L3. apply Ln in T4 as L4. apply Ln in T5 as L5.
  eexists. split; [reflexivity|].
  assert (G : forall c k col, get_column (csv_frame (numbered track_names) rows) c = Ok (infer_column (field_column k rows)) -> tracked k rows col ->
    track_column (csv_frame (numbered track_names) rows) c = Some col) by (intros c k col E T; unfold track_column; rewrite E, (tracked_column _ _ _ T); reflexivity).
  repeat split; try lia; (eapply G; [reflexivity|assumption]).
Qed.

(** ** The anomaly with the segment in it *)
Lemma embedded m faa x y : script_filter_nan x = Ok y -> (1440 < len x)%nat -> (m + len x <= len faa + 480)%nat ->
  exists r, embed_nan m faa x = Ok r /\ len r = len faa /\
    (forall i, (480 <= i)%nat -> (i + 480 < len x)%nat -> nth_error r (m + i) = nth_error y i) /\
    (forall k, (k < m + 480)%nat \/ (m + len x <= k + 480)%nat -> nth_error r k = nth_error faa k).
Proof.
  intros Ey Hn Hl. destruct (C95_missing x) as [_ S2]. destruct (S2 Hn) as (y' & Ey' & Ly & _). assert (y' = y) by congruence. subst y'. clear S2 Ey'.
  unfold embed_nan. rewrite Ey. cbn [bind].
  assert (Lv : len (slice_neg y script_taps script_taps) = (len x - 960)%nat) by (unfold slice_neg, script_taps; rewrite slice_length, Ly; lia).
  unfold loc_assign_nan. rewrite Lv. unfold script_taps at 1 2 3. replace (Nat.min (len faa) (m + 480 + (len x - 960)) - (m + 480) =? len x - 960)%nat with true by (symmetry; apply Nat.eqb_eq; lia).
  eexists. split; [reflexivity|]. split; [rewrite map_length, seq_length; reflexivity|].
  assert (At : forall k, (k < len faa)%nat -> forall f : nat -> option R, nth_error (map f (seq 0 (len faa))) k = Some (f k)).
  { intros k Hk f. rewrite nth_error_map, (nth_error_nth' _ 0%nat), seq_nth by (rewrite ?seq_length; lia). reflexivity. }
  split.
  - intros i Hi Hi'. rewrite At by lia. unfold script_taps. replace (m + 480 <=? m + i)%nat with true by (symmetry; apply Nat.leb_le; lia).
    replace (m + i <? m + 480 + (len x - 960))%nat with true by (symmetry; apply Nat.ltb_lt; lia). cbn [andb].
    unfold slice_neg. rewrite nth_slice by (rewrite ?Ly; lia). replace (480 + (m + i - (m + 480)))%nat with i by lia.
    rewrite (nth_error_nth' y None) by lia. reflexivity.
  - intros k Hk. destruct (Nat.lt_ge_cases k (len faa)) as [Hkt|Hkt]; [|rewrite !(proj2 (nth_error_None _ _)) by (rewrite ?map_length, ?seq_length; lia); reflexivity].
    rewrite At by exact Hkt. rewrite (nth_error_nth' faa None) by exact Hkt. f_equal. unfold script_taps.
    destruct (Nat.leb_spec (m + 480) k) as [H1|H1]; [|reflexivity]. destruct (Nat.ltb_spec k (m + 480 + (len x - 960))) as [H2|H2]; [lia|reflexivity].
Qed.

(** ** The anomalies: what is taken away does not depend on the anomaly *)
Lemma rmba_split x0 xs dep sed age n : len (x0 :: xs) = n -> (2 <= n)%nat -> last (x0 :: xs) 0 <> x0 -> len dep = n -> len sed = n -> len age = n ->
  exists w s c T, len w = n /\ len s = n /\ len c = n /\ len T = n /\ forall faa,
    rmba (x0 :: xs) faa dep sed age = Ok (map2 osub (map2 osub (map2 osub faa w) s) c, map2 osub (map2 osub (map2 osub (map2 osub faa w) s) c) T).
Proof.
  intros Lx Hn Hl Ld Ls La.
  assert (Lb : len (map2 osub dep sed) = n) by (apply omap2_len; assumption).
  assert (G : forall p r, len p = n -> exists a, nan_grav1d (x0 :: xs) p r = Ok a /\ len a = n) by (intros p r Lp; apply nan_total; assumption).
  assert (Rows : forall l, exists rows, mapM (fun i => do ziso <- isotherm age (nth i temps 0); nan_grav1d (x0 :: xs) (map (fun o => osub o (Some dz_c)) (map2 osub (map2 osub dep sed) ziso)) (nth (i + 3) drho 0)) l = Ok rows).
  { induction l as [|i l [rows IH]]; [exists []; reflexivity|]. cbn [mapM]. destruct (isotherm_total age (nth i temps 0)) as (z & -> & Lz & _). cbn [bind].
    destruct (G (map (fun o => osub o (Some dz_c)) (map2 osub (map2 osub dep sed) z)) (nth (i + 3) drho 0)) as (row & -> & _); [rewrite map_length; apply omap2_len; [exact Lb|lia]|].
    cbn [bind]. rewrite IH. cbn [bind]. eexists. reflexivity. }
  destruct (G dep (nth 0 drho 0) Ld) as (w & Ew & Lw). destruct (G (map2 osub dep sed) (nth 1 drho 0) Lb) as (s & Es & Lsx).
  destruct (G (map (fun o => osub o (Some dz_c)) (map2 osub dep sed)) (nth 2 drho 0) ltac:(rewrite map_length; exact Lb)) as (c & Ec & Lc).
  destruct (Rows (seq 0 (len temps - 1))) as (rows & Er).
  exists w, s, c. eexists. do 3 (split; [eassumption|]). split; [|intros faa; unfold rmba; rewrite Ew; cbn [bind]; rewrite Es; cbn [bind]; rewrite Ec; cbn [bind]; rewrite Er; cbn [bind]; reflexivity].
  rewrite map_length, seq_length. exact Lx.
Qed.

Lemma all_known (l : list (option R)) : ~ In None l -> exists v, l = map Some v.
Proof.
  induction l as [|[x|] l IH]; intros H; [exists []; reflexivity| |exfalso; apply H; left; reflexivity].
  destruct IH as (v & ->); [intros I; apply H; right; exact I|]. exists (x :: v). reflexivity.
Qed.
Lemma crust_total xs RM : 0 < last xs 0 -> len RM = 1000%nat -> exists T G, line_crust (line_xobs xs) RM = Ok (T, G) /\ len T = 1000%nat /\ len G = 1000%nat.
Proof.
  intros Hl L. destruct (in_dec (fun a b : option R => ltac:(decide equality; apply Req_EM_T)) None RM) as [I|I].
  - rewrite (proj1 (C100_missing xs RM) I L). exists (repeat None 1000), (repeat None 1000). rewrite repeat_length. auto.
  - destruct (all_known _ I) as (v & ->). rewrite map_length in L. destruct (C100_every_series v L) as (c & A & B & H).
    destruct (C100_curves xs v c A B Hl L H) as (T & G & E & LT & LG & _). exists (map Some T), (map Some G). rewrite !map_length. auto.
Qed.

(** ** The profile *)
Lemma ranges_distances g lon lat xs x0 l0 lon' lat' : lon = x0 :: lon' -> lat = l0 :: lat' -> distances g lon lat xs -> ranges g (l0, x0) (combine lat lon) = xs.
Proof.
  intros -> -> (L1 & L2 & H0 & H). assert (Lc : @List.length point (combine (l0 :: lat') (x0 :: lon')) = len (x0 :: lon')) by (unfold point; rewrite combine_length, L2; apply Nat.min_id).
  unfold ranges. rewrite Lc. apply (list_eq_nth _ _ _ 0); [rewrite map_length, seq_length; congruence|]. intros i Hi. rewrite map_length, seq_length in Hi.
  rewrite (L_Base.nth_map_seq R) by exact Hi. destruct i as [|i]; [symmetry; exact H0|]. cbn [Nat.eqb]. rewrite H by lia. f_equal. unfold point. rewrite combine_nth by exact L2.
  f_equal; apply nth_indep; rewrite ?L2; exact Hi.
Qed.
Lemma xobs_cons xs : exists r, line_xobs xs = 0 :: r.
Proof. unfold line_xobs, linspace. change (seq 0 1000) with (0%nat :: seq 1 999). cbn [map]. rewrite Rmult_0_l. eexists. reflexivity. Qed.
Lemma xobs_last xs : last (line_xobs xs) 0 = last xs 0.
Proof. rewrite last_nth, xobs_length. unfold line_xobs. rewrite linspace_nth by lia. rewrite inr999. field. Qed.
Lemma resample_total xs ys : apart xs -> (2 <= len xs)%nat -> nth 0 xs 0 = 0 -> len ys = len xs -> exists r, resample xs ys = Ok r /\ len r = 1000%nat /\ evenly xs ys r.
Proof.
  intros [A _] L E Ly. destruct (C89_any_order xs ys A ltac:(rewrite <- E; apply nth_In; lia) Ly) as (r & Er & Lr & K & N). exists r. split; [exact Er|]. split; [exact Lr|]. split; [exact Lr|]. split; [exact K|exact N].
Qed.
Lemma profile_runs g lon lat anom dep sed age xs : distances g lon lat xs -> apart xs -> (2 <= len lon)%nat ->
  len anom = len lon -> len dep = len lon -> len sed = len lon -> len age = len lon ->
  exists P, profile_of g (combine lat lon) anom dep sed age = Ok P /\ f_xpts P = xs /\ f_xobs P = line_xobs xs /\
    resample xs anom = Ok (f_anom P) /\ resample xs dep = Ok (f_dep P) /\ resample xs sed = Ok (f_sed P) /\ resample xs age = Ok (f_age P) /\
    evenly xs anom (f_anom P) /\ evenly xs dep (f_dep P) /\ evenly xs sed (f_sed P) /\ evenly xs age (f_age P) /\
    rmba (f_xobs P) (f_anom P) (f_dep P) (f_sed P) (f_age P) = Ok (f_mba P, f_rmba P) /\ line_crust (f_xobs P) (f_rmba P) = Ok (f_thick P, f_back P) /\
    len (f_mba P) = 1000%nat /\ len (f_rmba P) = 1000%nat /\ len (f_thick P) = 1000%nat /\ len (f_back P) = 1000%nat.
Proof.
  intros D A L La Ld Ls Lg. pose proof D as (L1 & L2 & H0 & H).
  assert (L' : (2 <= len xs)%nat) by lia. pose proof (proj2 A) as Hpos.
  destruct lon as [|x0 lon']; [cbn in L; lia|]. destruct lat as [|l0 lat']; [discriminate L2|].
  pose proof (ranges_distances g _ _ xs x0 l0 lon' lat' eq_refl eq_refl D) as Er. unfold profile_of. cbn [combine] in *. rewrite Er.
  destruct (resample_total xs anom A L' H0 ltac:(lia)) as (fi & Ef & Lf & Vf). destruct (resample_total xs dep A L' H0 ltac:(lia)) as (di & Ed & Ldi & Vd).
  destruct (resample_total xs age A L' H0 ltac:(lia)) as (ai & Ea & Lai & Va). destruct (resample_total xs sed A L' H0 ltac:(lia)) as (si & Es & Lsi & Vs).
  destruct (xobs_cons xs) as (r & Ex). pose proof (xobs_length xs) as Lx. pose proof (xobs_last xs) as Hx.
  destruct (rmba_split 0 r di si ai 1000) as (w & s & c & T & Lw & Lsx & Lc & LT & Em); [rewrite <- Ex; exact Lx|lia|rewrite <- Ex, Hx; lra|assumption..|].
  specialize (Em fi). rewrite <- Ex in Em.
  assert (LM : len (map2 osub (map2 osub (map2 osub fi w) s) c) = 1000%nat) by (repeat apply omap2_len; assumption).
  assert (LR : len (map2 osub (map2 osub (map2 osub (map2 osub fi w) s) c) T) = 1000%nat) by (apply omap2_len; assumption).
  destruct (crust_total xs _ Hpos LR) as (th & bk & Ec & Lth & Lbk).
  rewrite Ef, Ed, Ea, Es. cbn [bind]. rewrite Em. cbn [bind fst snd]. rewrite Ec. cbn [bind fst snd].
  eexists. split; [reflexivity|]. cbn [f_xpts f_xobs f_anom f_dep f_sed f_age f_mba f_rmba f_thick f_back].
  repeat (split; [reflexivity || assumption|]). exact Lbk.
Qed.

Lemma script_runs g data pts m line fsys path text lon lat dep faa sed age : Forall2 (fun r p => l_lat r = Some (fst p) /\ l_lon r = Some (snd p)) data pts ->
  extended_line g pts = Ok (m, line) -> fsys path = Some text -> track_file text lon lat dep faa sed age ->
  rmba_script g data fsys path = match embed_nan m faa (map l_faa data) with Ok anom => Some (profile_of g (combine lat lon) anom dep sed age) | Raise e => Some (Raise e) end.
Proof.
  intros Fp Ee Ht T. destruct (track_read _ _ _ _ _ _ _ T) as (t & Et & C1 & C2 & C3 & C4 & C5 & C6 & _).
  assert (Ec : combine (map fst pts) (map snd pts) = pts) by (clear; induction pts as [|[x y] pts IH]; [reflexivity|cbn; f_equal; exact IH]).
  assert (F1 : finite (map l_lat data) = Some (map fst pts)) by (apply finite_known; clear - Fp; induction Fp as [|? ? ? ? [? ?] _ IH]; constructor; assumption).
  assert (F2 : finite (map l_lon data) = Some (map snd pts)) by (apply finite_known; clear - Fp; induction Fp as [|? ? ? ? [? ?] _ IH]; constructor; assumption).
  unfold rmba_script. rewrite F1, F2, Ec, Ee. unfold open_text. rewrite Ht. cbn [andthen fst]. rewrite Et. cbn [andthen]. rewrite C1, C2, C3, C4, C5, C6. destruct (embed_nan m faa (map l_faa data)) as [anom|e]; cbn [andthen]; [|reflexivity].
  rewrite !finite_map. reflexivity.
Qed.

(** C116: the anomaly of the profile is the low-passed one of the segment 480 samples from its ends and the tracked one elsewhere; 1000 values of it, of depth, sediment
    and age at even steps; from these the anomalies of C88, and the curves of C100. *)
Theorem C116_profile : forall g data pts m line fsys path text lon lat dep faa sed age xs,
  Forall2 (fun r p => l_lat r = Some (fst p) /\ l_lon r = Some (snd p)) data pts -> extended_line g pts = Ok (m, line) -> (1440 < len data)%nat ->
  fsys path = Some text -> track_file text lon lat dep faa sed age -> (m + len data <= len lon + 480)%nat -> distances g lon lat xs -> apart xs ->
  exists P anom ffaa, rmba_script g data fsys path = Some (Ok P) /\ f_xpts P = xs /\
    script_filter_nan (map l_faa data) = Ok ffaa /\ len anom = len lon /\
    (forall i, (480 <= i)%nat -> (i + 480 < len data)%nat -> nth_error anom (m + i) = nth_error ffaa i) /\
    (forall k, (k < m + 480)%nat \/ (m + len data <= k + 480)%nat -> nth_error anom k = nth_error faa k) /\
    len (f_xobs P) = 1000%nat /\ (forall j, (j < 1000)%nat -> nth j (f_xobs P) 0 = INR j * last xs 0 / 999) /\
    evenly xs anom (f_anom P) /\ evenly xs dep (f_dep P) /\ evenly xs sed (f_sed P) /\ evenly xs age (f_age P) /\
    len (f_mba P) = 1000%nat /\ len (f_rmba P) = 1000%nat /\ len (f_thick P) = 1000%nat /\ len (f_back P) = 1000%nat /\
    (forall f d s a, f_anom P = map Some f -> f_dep P = map Some d -> f_sed P = map Some s -> f_age P = map Some a -> (forall y, In y a -> 0 <= y) ->
       exists z M RM, f_mba P = map Some M /\ f_rmba P = map Some RM /\
         (forall i j, (i < 27)%nat -> (j < 1000)%nat -> isotherm_depth (nth j a 0) (50 * INR i) (z i j)) /\
         forall j, (j < 1000)%nat ->
           let gr k := surface_gravity 1000 (last xs 0 / 999) (map (surface d s z k) (seq 0 1000)) (layer_density (S k) - layer_density k) j in
           nth j M 0 = nth j f 0 - Rsum 3 gr /\ nth j RM 0 = nth j f 0 - Rsum 30 gr) /\
    (In None (f_dep P) \/ In None (f_sed P) -> f_mba P = repeat None 1000 /\ f_rmba P = repeat None 1000) /\
    (In None (f_age P) \/ (exists y, In (Some y) (f_age P) /\ y < 0) -> f_rmba P = repeat None 1000) /\
    (In None (f_rmba P) -> f_thick P = repeat None 1000 /\ f_back P = repeat None 1000) /\
    (forall RM c A B, f_rmba P = map Some RM -> (forall j, (j < 1000)%nat -> nth j RM 0 = harmonics c A B (INR j)) ->
       let w := last xs 0 / 999 in exists T G, f_thick P = map Some T /\ f_back P = map Some G /\ forall j, (j < 1000)%nat ->
         nth j G 0 = harmonics c (fun m => halves w share m * A m) (fun m => halves w share m * B m) (INR j + 1) /\
         nth j T 0 = harmonics 0 (fun m => slab_km 0.4 (halves w (fun k => exp (5 * k) * share k) m * A m)) (fun m => slab_km 0.4 (halves w (fun k => exp (5 * k) * share k) m * B m)) (INR j + 1)).
Proof.
  intros g data pts m line fsys path text lon lat dep faa sed age xs Fp Ee Hn Ht T Hm D A.
  rewrite (script_runs _ _ _ _ _ _ _ _ _ _ _ _ _ _ Fp Ee Ht T). destruct (track_read _ _ _ _ _ _ _ T) as (_ & _ & _ & _ & _ & _ & _ & _ & L1 & L2 & L3 & L4 & L5).
  destruct (proj2 (C95_missing (map l_faa data))) as (ffaa & Ef & _); [rewrite map_length; exact Hn|].
  destruct (embedded m faa (map l_faa data) ffaa Ef) as (anom & -> & La & V1 & V2); [rewrite map_length; exact Hn|rewrite map_length; lia|]. rewrite map_length in V1, V2.
  destruct (profile_runs g lon lat anom dep sed age xs D A) as (P & EP & X1 & X2 & _ & _ & _ & _ & E1 & E2 & E3 & E4 & Em & Ec & M1 & M2 & M3 & M4); [lia..|].
  exists P, anom, ffaa. rewrite EP. split; [reflexivity|]. split; [exact X1|]. split; [exact Ef|]. split; [lia|]. split; [exact V1|]. split; [exact V2|].
  destruct D as (D1 & _ & D0 & _). assert (Hpos : 0 < last xs 0) by apply A.
  rewrite X2 in *. split; [apply xobs_length|]. split.
  { intros j Hj. unfold line_xobs. rewrite linspace_nth by exact Hj. rewrite inr999. field. }
  do 8 (split; [assumption|]).
  pose proof (proj1 E1) as Lf. pose proof (proj1 E2) as Ld. pose proof (proj1 E3) as Ls. pose proof (proj1 E4) as Lg.
  destruct (xobs_cons xs) as (r & Ex). pose proof (xobs_length xs) as Lx. pose proof (xobs_last xs) as Hx. rewrite Ex in Em, Lx, Hx.
  split; [|split; [|split; [|split]]].
  - intros f d s a Ff Fd Fs Fa Hy. rewrite Ff, Fd, Fs, Fa in *. rewrite map_length in *.
    destruct (C88_surfaces 0 r f d s a 1000 Lx ltac:(lia) eq_refl ltac:(rewrite Hx; lra) Lf Ld Ls Lg Hy) as (z & M & RM & Z & _ & E & _ & _ & V).
    rewrite Hx in V. rewrite E in Em. exists z, M, RM. split; [congruence|]. split; [congruence|]. split; [exact Z|]. intros j Hj.
    specialize (V j Hj). replace ((last xs 0 - 0) / (INR 1000 - 1)) with (last xs 0 / 999) in V; [exact V|]. rewrite inr1000. field.
  - intros H. assert (K : exists j, (j < 1000)%nat /\ (nth j (f_dep P) None = None \/ nth j (f_sed P) None = None)).
    { destruct H as [H|H]; apply In_nth with (d := None) in H; destruct H as (j & Hj & H); exists j; split; [lia|auto|lia|auto]. }
    destruct K as (j & Hj & K). destruct (C88_missing 0 r (f_anom P) (f_dep P) (f_sed P) (f_age P) 1000 j Lx ltac:(lia) ltac:(rewrite Hx; lra) Lf Ld Ls Lg Hj) as (K1 & K2 & _).
    destruct K as [K|K]; [rewrite (K1 K) in Em|rewrite (K2 K) in Em]; split; congruence.
  - intros H. assert (K : exists j, (j < 1000)%nat /\ (nth j (f_age P) None = None \/ exists a, nth j (f_age P) None = Some a /\ a < 0)).
    { destruct H as [H|(y & H & Hy)]; apply In_nth with (d := None) in H; destruct H as (j & Hj & H); exists j; (split; [lia|]); [left; exact H|right; exists y; auto]. }
    destruct K as (j & Hj & K). destruct (C88_missing 0 r (f_anom P) (f_dep P) (f_sed P) (f_age P) 1000 j Lx ltac:(lia) ltac:(rewrite Hx; lra) Lf Ld Ls Lg Hj) as (_ & _ & K3).
    destruct (K3 K) as (M & _ & E). rewrite E in Em. congruence.
  - intros I. rewrite (proj1 (C100_missing xs (f_rmba P)) I M2) in Ec. split; congruence.
  - intros RM c A0 B0 ER HR. rewrite ER in *. rewrite map_length in M2. destruct (C100_curves xs RM c A0 B0 Hpos M2 HR) as (T' & G' & E & _ & _ & V). cbv zeta in V.
    rewrite E in Ec. exists T', G'. split; [congruence|]. split; [congruence|]. exact V.
Qed.
Print Assumptions C116_profile.
