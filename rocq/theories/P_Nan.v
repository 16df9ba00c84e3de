(** C94, C95: missing positions and readings in the reduction to the free-air anomaly and in the filter. *)
From Coq Require Import List Bool Arith ZArith Reals Lia Lra.
From Verif Require Import M_Py M_Np M_Cal M_Corr M_Tide M_CC M_Filt M_Faa M_Nan S_Nav S_Cal S_Corr S_Tide S_Faa S_Filt S_Nan L_Np L_Faa L_Nan P_Corr P_Tide P_Faa P_Filt.
Import ListNotations.
Open Scope R_scope.

Lemma missing_nth l k : (k < length l)%nat -> missing l k <-> nth k l None = None.
Proof. intros H. unfold missing. rewrite (nth_error_nth' l None) by exact H. split; congruence. Qed.

(** C94: a sample is lost exactly if its reading, its position or the positions next to it (at the ends: next to its neighbour) are missing;
    but the longitude of the neighbour itself does not matter. *)
Theorem C94_missing : forall grav lon lat times samp n, length grav = n -> length lon = n -> length lat = n -> length times = n -> (3 <= n)%nat ->
  Forall (fun t => utcoffset t <> None) times ->
  exists faa full, corrected_nan grav lon lat times samp = Ok (faa, full) /\ length faa = n /\ length full = n /\
    forall k, (k < n)%nat -> (missing faa k <-> blank grav lon lat n k) /\ (missing full k <-> blank grav lon lat n k).
Proof.
  intros grav lon lat times samp n Lg Lo La Lt H Aw. destruct (corrected_nan_ok grav lon lat times samp n Lg Lo La Lt H Aw) as (faa & full & E & Lf & Lu & V).
  exists faa, full. split; [exact E|]. split; [exact Lf|]. split; [exact Lu|]. intros k Hk. rewrite !missing_nth by lia. apply V. exact Hk.
Qed.
Print Assumptions C94_missing.

(** All other samples have the value which they have with any numbers in place of the missing ones. *)
Theorem C94_values : forall grav lon lat times samp faa full grav' lon' lat', corrected_nan grav lon lat times samp = Ok (faa, full) ->
  completes grav' grav -> completes lon' lon -> completes lat' lat ->
  exists faa' full', corrected grav' lon' lat' times samp = Ok (faa', full') /\ completes faa' faa /\ completes full' full.
Proof.
  intros grav lon lat times samp faa full grav' lon' lat' E Cg Co Ca. rewrite completes_fitl in Cg, Co, Ca.
  pose proof (corrected_fits grav lon lat times samp grav' lon' lat' Cg Co Ca) as H. rewrite E in H.
  destruct (corrected grav' lon' lat' times samp) as [[f' u']|]; [|contradiction]. exists f', u'. rewrite !completes_fitl. split; [reflexivity|exact H].
Qed.
Print Assumptions C94_values.

(** Anomaly and full field still differ by normal gravity. *)
Theorem C94_difference : forall grav lon lat times samp n faa full k a u y, length grav = n -> length lon = n -> length lat = n -> length times = n -> (3 <= n)%nat ->
  Forall (fun t => exists y m d h mi s us off, datetime_new y m d h mi s us (Some off) = Ok t /\ (-86400000000 < off < 86400000000)%Z) times ->
  corrected_nan grav lon lat times samp = Ok (faa, full) -> nth_error faa k = Some (Some a) -> nth_error full k = Some (Some u) -> nth_error lat k = Some (Some y) ->
  Rabs (u - a - somigliana (rad y)) <= 1e-5.
Proof.
  intros grav lon lat times samp n faa full k a u y Lg Lo La Lt H Ft E Ha Hu Hy.
  assert (C : forall l, completes (fill l) l) by (intros; apply completes_fitl, fill_fitl).
  destruct (C94_values grav lon lat times samp faa full (fill grav) (fill lon) (fill lat) E (C _) (C _) (C _)) as (faa' & full' & E' & Cf & Cu).
  assert (L : forall l, length (fill l) = length l) by (intros; apply map_length).
  destruct (C27_shape (fill lon) (fill lat) (repeat 0 n) samp 6378137 6356752.3142 n) as (EE & HE & _); rewrite ?L, ?repeat_length; auto.
  destruct (C80_reduction (fill grav) (fill lon) (fill lat) times samp n faa' full' EE) as (_ & _ & V); rewrite ?L; auto.
  assert (Hk : (k < n)%nat). { rewrite <- La. apply nth_error_Some. congruence. }
  destruct (V k Hk) as [V1 _]. rewrite (nth_error_nth full' k 0 (proj2 Cu k u Hu)), (nth_error_nth faa' k 0 (proj2 Cf k a Ha)), (nth_error_nth (fill lat) k 0 (proj2 (C lat) k y Hy)) in V1. exact V1.
Qed.
Print Assumptions C94_difference.

(** Failures: too few samples, times without a time zone. *)
Theorem C94_failures : forall grav lon lat times samp,
  (length lon = length lat -> (length lat < 3)%nat -> corrected_nan grav lon lat times samp = Raise IndexError) /\
  (length lon = length lat -> length times = length lat -> (3 <= length lat)%nat -> Exists (fun t => utcoffset t = None) times -> corrected_nan grav lon lat times samp = Raise TypeError).
Proof.
  intros grav lon lat times samp. pose proof (corrected_fits grav lon lat times samp _ _ _ (fill_fitl grav) (fill_fitl lon) (fill_fitl lat)) as F.
  assert (L : forall l, length (fill l) = length l) by (intros; apply map_length).
  destruct (C80_failures (fill grav) (fill lon) (fill lat) times samp) as [F1 F2]. rewrite !L in F1, F2.
  split; intros.
  - rewrite F1 in F by assumption. destruct (corrected_nan _ _ _ _ _) as [[? ?]|e]; [contradiction|congruence].
  - rewrite F2 in F by assumption. destruct (corrected_nan _ _ _ _ _) as [[? ?]|e]; [contradiction|congruence].
Qed.
Print Assumptions C94_failures.

Lemma aware_or_not times : Forall (fun t => utcoffset t <> None) times \/ Exists (fun t => utcoffset t = None) times.
Proof.
  induction times as [|t ts [IH|IH]]; [left; constructor| |right; apply Exists_cons_tl; exact IH].
  destruct (utcoffset t) eqn:E; [left; constructor; [congruence|exact IH]|right; apply Exists_cons_hd; exact E].
Qed.
(** Without missing values nothing changes. *)
Theorem C94_complete : forall nav rgrav times bias samp r, length rgrav = length times -> faa_script nav rgrav times bias samp = Some r ->
  faa_script_nan nav (map Some rgrav) times bias samp = match r with Ok (faa, full) => Ok (map Some faa, map Some full) | Raise e => Raise e end.
Proof.
  intros nav rgrav times bias samp r Lr H. unfold faa_script in H. unfold faa_script_nan. rewrite timestamps in *. cbn [bind].
  match type of H with context[sync nav ?l] => assert (Lt : length l = length times) by apply map_length; set (ts := l) in *; clearbody ts end. unfold sync in *.
  destruct (finite (map (interp1d _ (map f_lon nav)) ts)) as [lon|] eqn:E1; [|discriminate]. destruct (finite (map (interp1d _ (map f_lat nav)) ts)) as [lat|] eqn:E2; [|discriminate].
  apply finite_spec in E1, E2. rewrite E1, E2. apply (f_equal (@length _)) in E1, E2. rewrite !map_length, Lt in E1, E2.
  assert (Hr : corrected (map (fun g => g + bias) rgrav) lon lat times samp = r) by congruence. clear H. rewrite map_map.
  change (map (fun x => nf2 Rplus (Some x) (K bias)) rgrav) with (map (fun x => Some ((fun g => g + bias) x)) rgrav).
  rewrite <- (map_map (fun g => g + bias) Some). assert (Lg : length (map (fun g => g + bias) rgrav) = length times) by (rewrite map_length; exact Lr).
  set (g := map (fun g => g + bias) rgrav) in *. clearbody g.
  pose proof (corrected_fits (map Some g) (map Some lon) (map Some lat) times samp g lon lat (fitl_some _) (fitl_some _) (fitl_some _)) as F.
  destruct (corrected_nan _ _ _ _ _) as [[f u]|e] eqn:EN; rewrite Hr in F; destruct r as [[f' u']|e']; try contradiction; [|congruence].
  destruct F as [Ff Fu]. destruct (C80_failures g lon lat times samp) as [X1 X2].
  destruct (Nat.lt_ge_cases (length lat) 3) as [S|S]; [rewrite X1 in Hr by lia; discriminate|].
  destruct (aware_or_not times) as [Aw|Ex]; [|rewrite X2 in Hr; [discriminate|lia|lia|exact S|exact Ex]].
  destruct (C94_missing (map Some g) (map Some lon) (map Some lat) times samp (length times)) as (f2 & u2 & E & Lf & Lu & V); rewrite ?map_length; try lia; try exact Aw.
  rewrite EN in E. assert (f = f2 /\ u = u2) as [-> ->] by (split; congruence).
  assert (B : forall k, (k < length times)%nat -> ~ blank (map Some g) (map Some lon) (map Some lat) (length times) k).
  { intros k Hk HB. assert (M : forall l j, ~ missing (map (@Some R) l) j). { intros l j Hj. unfold missing in Hj. rewrite nth_error_map in Hj. destruct (nth_error l j); discriminate. }
    unfold blank in HB. decompose [or] HB; eapply M; eassumption. }
  assert (N : forall l, length l = length times -> (forall k, (k < length times)%nat -> ~ missing l k) -> ~ In None l).
  { intros l L H I. apply In_nth_error in I. destruct I as [k Hk]. assert (k < length l)%nat by (apply nth_error_Some; congruence). apply (H k); [lia|exact Hk]. }
  rewrite (fitl_full _ _ Ff), (fitl_full _ _ Fu); [reflexivity| |].
  - apply N; [exact Lu|]. intros k Hk Hm. apply (B k Hk). exact (proj1 (proj2 (V k Hk)) Hm).
  - apply N; [exact Lf|]. intros k Hk Hm. apply (B k Hk). exact (proj1 (proj1 (V k Hk)) Hm).
Qed.
Print Assumptions C94_complete.

(** Fixes without a position: a sample is lost exactly if, for it or for the sample next to it (two next to it at the ends), one of the two fixes used is one of these. *)
Theorem C94_navigation_gap : forall nav rgrav times bias samp n s,
  ascending (map f_time nav) -> (2 <= length nav)%nat -> Forall (fun f => f_lon f = None <-> f_lat f = None) nav ->
  length rgrav = n -> length times = n -> length s = n -> (3 <= n)%nat ->
  (forall j t, nth_error times j = Some t -> exists u, utc_time t u /\ IZR u / 1000000 = nth j s 0) ->
  exists faa full, faa_script_nan nav (map Some rgrav) times bias samp = Ok (faa, full) /\ length faa = n /\ length full = n /\
    forall k, (k < n)%nat ->
      (missing faa k <-> exists i j, near 1 i (centre n k) /\ bracket (map f_time nav) (nth i s 0) j /\ (missing (map f_lon nav) j \/ missing (map f_lon nav) (S j))) /\
      (missing full k <-> missing faa k).
Proof.
  intros nav rgrav times bias samp n s A H2 FF Lr Lt Ls H3 Ht.
  assert (Aw : Forall (fun t => utcoffset t <> None) times).
  { apply Forall_forall. intros t It. apply In_nth_error in It. destruct It as [j Ej]. destruct (Ht j t Ej) as (u & U & _). destruct (utc_time_us t u U) as [-> _]. discriminate. }
  unfold faa_script_nan. rewrite timestamps. cbn [bind].
  match goal with |- context[sync nav ?l] => assert (Ets : l = s) end.
  { apply (nth_ext _ _ 0 0); rewrite !map_length; [lia|]. intros j Hj. destruct (nth_error times j) as [t|] eqn:E; [|apply nth_error_None in E; lia].
    destruct (Ht j t E) as (u & U & V). destruct (utc_time_us t u U) as [U1 U2].
    rewrite (nth_error_nth (map _ times) j (x := IZR u / 1000000) 0) by (rewrite nth_error_map, E; cbn; rewrite U1, U2; reflexivity). exact V. }
  rewrite Ets. unfold sync. set (lon := map (interp1d _ (map f_lon nav)) s). set (lat := map (interp1d _ (map f_lat nav)) s). set (g := map _ (map Some rgrav)).
  assert (Lg : length g = n) by (unfold g; rewrite !map_length; exact Lr). assert (Lo : length lon = n) by (unfold lon; rewrite map_length; exact Ls). assert (La : length lat = n) by (unfold lat; rewrite map_length; exact Ls).
  destruct (C94_missing g lon lat times samp n Lg Lo La Lt H3 Aw) as (faa & full & E & Lf & Lu & V).
  exists faa, full. split; [exact E|]. split; [exact Lf|]. split; [exact Lu|].
  assert (G : forall k, ~ missing g k). { intros k Hk. unfold missing, g in Hk. rewrite !nth_error_map in Hk. destruct (nth_error rgrav k); discriminate. }
  assert (Mf : forall j, missing (map f_lon nav) j <-> missing (map f_lat nav) j).
  { intros j. unfold missing. rewrite !nth_error_map. rewrite Forall_forall in FF. destruct (nth_error nav j) as [f|] eqn:Ej; cbn; [|reflexivity].
    pose proof (FF f (nth_error_In _ _ Ej)) as X. split; intros Y; f_equal; apply X; congruence. }
  assert (P : forall i, (i < n)%nat -> (missing lon i <-> exists j, bracket (map f_time nav) (nth i s 0) j /\ (missing (map f_lon nav) j \/ missing (map f_lon nav) (S j))) /\ (missing lat i <-> missing lon i)).
  { intros i Hi. destruct (C79_fixes_used (map f_time nav) (nth i s 0) A ltac:(rewrite map_length; exact H2)) as (j & Bj & Uj).
    assert (Hj : (S j < length nav)%nat) by (destruct Bj as [X _]; rewrite map_length in X; exact X).
    assert (Q : forall sel, missing (map (interp1d (map f_time nav) (map sel nav)) s) i <-> missing (map sel nav) j \/ missing (map sel nav) (S j)).
    { intros sel. rewrite !(missing_nth (map sel nav)) by (rewrite map_length; lia). rewrite <- (proj1 (C79_interpolated (map f_time nav) (map sel nav) (nth i s 0) j A Bj)).
      unfold missing. rewrite nth_error_map. rewrite (nth_error_nth' s 0) by lia. cbn [option_map]. split; congruence. }
    unfold lon, lat. rewrite !Q. rewrite <- !Mf. split; [|reflexivity]. split.
    - intros X. exists j. split; assumption.
    - intros (j' & Bj' & X). rewrite (Uj j' Bj') in X. exact X. }
  intros k Hk. destruct (V k Hk) as [V1 V2]. rewrite V2. split; [|symmetry; exact V1]. rewrite V1. unfold blank.
  assert (C : (1 <= centre n k <= n - 2)%nat) by (unfold centre; lia). assert (Ck : (centre n k - 1 <= k <= centre n k + 1)%nat) by (unfold centre; lia).
  split.
  - intros [X|X]; [exfalso; exact (G k X)|].
    assert (exists i, near 1 i (centre n k) /\ missing lon i) as (i & Ni & Mi).
    { decompose [or] X; [exists k|exists k|exists (centre n k - 1)%nat|exists (centre n k)|exists (centre n k + 1)%nat|exists (centre n k - 1)%nat|exists (centre n k + 1)%nat]; (split; [unfold near; lia|]); try assumption; apply P; try assumption; lia. }
    assert (Li : (i < n)%nat) by (unfold near in Ni; lia). apply (proj1 (P i Li)) in Mi. destruct Mi as (j & Bj & Mj). exists i, j. split; [exact Ni|]. split; assumption.
  - intros (i & j & Ni & Bj & Mj). assert (Li : (i < n)%nat) by (unfold near in Ni; lia). assert (Mi : missing lat i). { apply (proj2 (P i Li)), (proj1 (P i Li)). exists j. split; assumption. }
    unfold near in Ni. assert (i = (centre n k - 1)%nat \/ i = centre n k \/ i = (centre n k + 1)%nat) as [Y|[Y|Y]] by lia; rewrite Y in Mi; tauto.
Qed.
Print Assumptions C94_navigation_gap.
Example C94_case : centre 10 0 = 1%nat /\ centre 10 4 = 4%nat /\ centre 10 9 = 8%nat /\
  (let l := [Some 1; Some 1; Some 1; None; Some 1; Some 1] in let o := [Some 1; Some 1; Some 1; Some 1; Some 1; Some 1] in
   (forall k, (k < 6)%nat -> blank o o l 6 k <-> (2 <= k)%nat) /\ ~ blank o [Some 1; None; Some 1; Some 1; Some 1; Some 1] o 6 0) /\
  completes [7; 8] [None; Some 8].
Proof.
  split; [reflexivity|]. split; [reflexivity|]. split; [reflexivity|]. split; [split|].
  - intros k Hk. unfold blank, missing. do 6 (destruct k as [|k]; [cbn; split; intros H; [decompose [or] H; try discriminate; try lia|try lia; auto 10]|]). lia.
  - unfold blank, missing. cbn. intros H. decompose [or] H; discriminate.
  - split; [reflexivity|]. intros [|[|[|k]]] x E; cbn in *; congruence.
Qed.

(** C95: the filtered record is missing exactly where a sample within 479 samples is. *)
Theorem C95_missing : forall x,
  ((length x <= 1440)%nat -> script_filter_nan x = Raise ValueError) /\
  ((1440 < length x)%nat -> exists y, script_filter_nan x = Ok y /\ length y = length x /\
     forall m, (m < length x)%nat -> missing y m <-> exists i, missing x i /\ near 479 i m).
Proof.
  intros x. assert (LB : length script_B = 480%nat) by (unfold script_B, firwin; rewrite !map_length, seq_length; reflexivity). split; intros H.
  - unfold script_filter_nan, filtfilt_nan. rewrite LB. replace (length x <=? 3 * Nat.max 1 480)%nat with true by (symmetry; apply Nat.leb_le; lia). reflexivity.
  - unfold script_filter_nan. destruct (filtfilt_nan_ok script_B x) as (y & E & L & V); [rewrite LB; lia|rewrite LB; lia|]. exists y. split; [exact E|]. split; [exact L|].
    intros m Hm. rewrite missing_nth by lia. rewrite (V m Hm), LB. change (480 - 1)%nat with 479%nat. split.
    + intros (i & Hi & Ni & Ei). exists i. split; [apply missing_nth; assumption|exact Ni].
    + intros (i & Mi & Ni). assert (Hi : (i < length x)%nat) by (apply nth_error_Some; unfold missing in Mi; congruence). exists i. split; [exact Hi|]. split; [exact Ni|]. apply missing_nth; assumption.
Qed.
Print Assumptions C95_missing.

(** All other samples are filtered as if the missing ones had any values. *)
Theorem C95_values : exists h, four_minute_low_pass h /\ forall x y v m a, script_filter_nan x = Ok y -> completes v x -> nth_error y m = Some (Some a) ->
  a = forwards_backwards h (reflected v) (Z.of_nat m).
Proof.
  destruct C81_filter as (h & Hh & HF). exists h. split; [exact Hh|]. intros x y v m a E Cv Ha. apply completes_fitl in Cv.
  pose proof (filtfilt_fits script_B x v Cv) as F. unfold script_filter_nan in E. rewrite E in F. fold (script_filter v) in F.
  destruct (HF v) as [H1 H2]. destruct (Nat.le_gt_cases (length v) 1440) as [L|L]; [rewrite H1 in F by exact L; contradiction|].
  destruct (H2 L) as (w & Ew & Lw & Vw). rewrite Ew in F. pose proof (fitl_nth _ _ F m) as N. rewrite (nth_error_nth y m None Ha) in N. cbn in N.
  assert (m < length y)%nat by (apply nth_error_Some; congruence). rewrite <- Vw; [exact N|]. rewrite <- Lw, <- (fitl_length _ _ F). assumption.
Qed.
Print Assumptions C95_values.

(** Nothing missing: the filter of C81. *)
Theorem C95_complete : forall x, script_filter_nan (map Some x) = match script_filter x with Ok y => Ok (map Some y) | Raise e => Raise e end.
Proof.
  intros x. pose proof (filtfilt_fits script_B (map Some x) x (fitl_some x)) as F. unfold script_filter. fold (script_filter_nan (map Some x)) in F.
  destruct (C95_missing (map Some x)) as [H1 H2]. rewrite map_length in H1, H2. destruct (Nat.le_gt_cases (length x) 1440) as [L|L].
  - rewrite (H1 L) in *. destruct (filtfilt script_B x); [contradiction|congruence].
  - destruct (H2 L) as (y & E & Ly & V). rewrite E in *. destruct (filtfilt script_B x) as [y'|]; [|contradiction]. f_equal. apply fitl_full; [exact F|].
    intros I. apply In_nth_error in I. destruct I as [k Hk]. assert (Kl : (k < length y)%nat) by (apply nth_error_Some; congruence).
    assert (M : missing y k) by exact Hk. apply V in M; [|lia]. destruct M as (i & Mi & _). unfold missing in Mi. rewrite nth_error_map in Mi. destruct (nth_error x i); discriminate.
Qed.
Print Assumptions C95_complete.
Example C95_case : exists y, script_filter_nan (map (fun k => if (k =? 1500)%nat then None else Some (INR k)) (seq 0 3000)) = Ok y /\ length y = 3000%nat /\
  forall m, (m < 3000)%nat -> nth_error y m = Some (if ((1021 <=? m) && (m <=? 1979))%nat%bool then None else Some (INR m)).
Proof.
  set (x := map _ _). assert (Lx : length x = 3000%nat) by (unfold x; rewrite map_length, seq_length; reflexivity).
  assert (Nx : forall k, (k < 3000)%nat -> nth_error x k = Some (if (k =? 1500)%nat then None else Some (INR k))).
  { intros k Hk. unfold x. rewrite nth_error_map. rewrite (nth_error_nth' (seq 0 3000) 0%nat) by (rewrite seq_length; exact Hk). rewrite seq_nth by exact Hk. reflexivity. }
  clearbody x. destruct (C95_missing x) as [_ H]. destruct (H ltac:(lia)) as (y & E & Ly & V). exists y. split; [exact E|]. rewrite Ly, Lx. split; [reflexivity|]. intros m Hm.
  assert (Cv : completes (map INR (seq 0 3000)) x).
  { split; [rewrite map_length, seq_length; congruence|]. intros k a Hk. assert (k < 3000)%nat by (rewrite <- Lx; apply nth_error_Some; congruence).
    rewrite Nx in Hk by assumption. rewrite nth_error_map. rewrite (nth_error_nth' (seq 0 3000) 0%nat) by (rewrite seq_length; assumption). rewrite seq_nth by assumption. cbn [option_map].
    change (0 + k)%nat with k. clear - Hk. destruct (k =? 1500)%nat; [discriminate|]. congruence. }
  destruct (nth_error y m) as [o|] eqn:Em; [|apply nth_error_None in Em; lia]. f_equal.
  assert (Miss : o = None <-> (1021 <= m <= 1979)%nat).
  { assert (M : missing y m <-> o = None) by (unfold missing; rewrite Em; split; congruence). rewrite <- M, V by lia. split.
    - intros (i & Mi & Ni). assert (i < 3000)%nat by (rewrite <- Lx; apply nth_error_Some; unfold missing in Mi; congruence).
      unfold missing in Mi. rewrite Nx in Mi by assumption. destruct (i =? 1500)%nat eqn:Ei; [|discriminate]. apply Nat.eqb_eq in Ei. unfold near in Ni. lia.
    - intros R. exists 1500%nat. split; [unfold missing; rewrite Nx by lia; reflexivity|unfold near; lia]. }
  destruct ((1021 <=? m) && (m <=? 1979))%nat%bool eqn:B.
  - apply andb_true_iff in B. rewrite !Nat.leb_le in B. apply Miss. lia.
  - destruct o as [a|]; [|exfalso; assert (R : (1021 <= m <= 1979)%nat) by (apply Miss; reflexivity); apply andb_false_iff in B; rewrite !Nat.leb_gt in B; lia].
    f_equal. assert (W : script_filter (map INR (seq 0 3000)) = Ok (map INR (seq 0 3000))).
    { apply (C81_lines_kept _ 0 1); [rewrite map_length, seq_length; lia|]. intros k Hk. rewrite map_length, seq_length in Hk.
      rewrite (nth_error_nth (map INR (seq 0 3000)) k 0 (x := INR k)); [ring|]. rewrite nth_error_map. rewrite (nth_error_nth' (seq 0 3000) 0%nat) by (rewrite seq_length; exact Hk). rewrite seq_nth by exact Hk. reflexivity. }
    pose proof (filtfilt_fits script_B x (map INR (seq 0 3000)) (proj1 (completes_fitl _ _) Cv)) as F. unfold script_filter_nan in E. rewrite E in F. fold (script_filter (map INR (seq 0 3000))) in F. rewrite W in F.
    apply completes_fitl in F. destruct F as [_ F]. specialize (F m a Em). rewrite nth_error_map in F. rewrite (nth_error_nth' (seq 0 3000) 0%nat) in F by (rewrite seq_length; exact Hm). rewrite seq_nth in F by exact Hm. cbn [option_map Nat.add] in F. congruence.
Qed.
