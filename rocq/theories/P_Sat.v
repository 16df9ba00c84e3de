(** Property C115: what the last plots of dgs_bgm_comp.py, dgs_raw_comp.py and dgs_ccp_calc.py show: the low-passed anomalies and the
    satellite values of the same rows. *)
From Coq Require Import ZArith QArith Reals Qreals Lra Lia Ascii String Arith Bool Sorted Permutation List.
From Verif Require Import M_Py M_Np M_Str M_Cal M_Ini M_ReadNav M_Table M_Bgm M_Dgs M_Nmea M_Faa M_Nan M_Filt M_Level M_Script M_Ccp M_Sat.
From Verif Require Import S_Base S_Str S_Nmea S_ReadNav S_Table S_Bgm S_Dgs S_Written S_Filt S_Script S_Raises S_Sat.
From Verif Require Import P_Faa L_Base L_Np L_Str L_Table L_ReadNav L_Dateline L_Bgm L_Dgs L_DgsRaw L_Written L_Filt L_Faa L_Script P_ReadNav P_Nan P_Script P_Raises P_Motion P_Meters P_Ccp.
Import ListNotations.
Open Scope Z_scope.
Local Notation len := List.length.

(** ** The file *)
Lemma words_exist s : exists l, words_of s l.
Proof.
  induction s as [|c s [l IH]]; [exists []; apply wo_nil; constructor|]. destruct (is_space c) eqn:E.
  - apply is_space_spec in E. exists l. destruct IH as [ws H|ws w H1 H2 H3|ws w c' s l H1 H2 H3 H4 H5].
    + apply wo_nil. constructor; assumption.
    + apply (wo_last (c :: ws)); [constructor|exact H2|exact H3]; assumption.
    + apply (wo_cons (c :: ws)); [constructor|exact H2|exact H3|exact H4|exact H5]; assumption.
  - assert (Nc : ~ space c) by (intros K; apply is_space_spec in K; congruence). destruct IH as [ws H|ws w H1 H2 H3|ws w c' s l H1 H2 H3 H4 H5].
    + destruct ws as [|d ws]; [exists [[c]]; apply (wo_last [] [c]); [constructor|discriminate|repeat constructor; exact Nc]|].
      exists [[c]]. inversion H; subst. apply (wo_cons [] [c] d ws []); [constructor|discriminate|repeat constructor; exact Nc|assumption|apply wo_nil; exact H].
    + destruct ws as [|d ws]; [exists [c :: w]; apply (wo_last [] (c :: w)); [constructor|discriminate|constructor; assumption]|].
      exists [[c]; w]. pose proof H1 as H1'. inversion H1'; subst. apply (wo_cons [] [c] d (ws ++ w) [w]); [constructor|discriminate|repeat constructor; exact Nc|assumption|apply (wo_last (d :: ws)); assumption].
    + destruct ws as [|d ws]; [exists ((c :: w) :: l); apply (wo_cons [] (c :: w) c' s l); [constructor|discriminate|constructor; assumption|assumption|assumption]|].
      exists ([c] :: w :: l). pose proof H1 as H1'. inversion H1'; subst. apply (wo_cons [] [c] d (ws ++ w ++ c' :: s) (w :: l)); [constructor|discriminate|repeat constructor; exact Nc|assumption|].
      apply (wo_cons (d :: ws)); assumption.
Qed.
Lemma words_ok s : words_of s (words s).
Proof. destruct (words_exist s) as [l H]. rewrite (words_spec _ _ H). exact H. Qed.
Lemma before_comment_ok l s : before_comment l s -> uncomment (chomp l) = s.
Proof.
  intros (b & Hb & N & E). rewrite (chomp_body _ _ Hb). unfold uncomment. destruct E as [->|(r & ->)].
  - clear Hb. induction s as [|c s IH]; [reflexivity|]. cbn [span]. destruct (Ascii.eqb_spec c "#") as [->|]; [elim N; left; reflexivity|]. cbn [negb].
    assert (N' : ~ In "#"%char s) by (intros K; apply N; right; exact K). specialize (IH N'). destruct (span _ s) as [x y]. cbn [fst] in *. rewrite IH. reflexivity.
  - clear Hb. induction s as [|c s IH]; [reflexivity|]. cbn [app span]. destruct (Ascii.eqb_spec c "#") as [->|]; [elim N; left; reflexivity|]. cbn [negb].
    assert (N' : ~ In "#"%char s) by (intros K; apply N; right; exact K). specialize (IH N'). destruct (span _ (s ++ _)) as [x y]. cbn [fst] in *. rewrite IH. reflexivity.
Qed.
Definition kept_rows (delim : option ascii) (skip : nat) (text : str) : list (list str) :=
  filter (fun f => match f with [] => false | _ => true end) (map (txt_fields delim) (skipn skip (readlines text))).
Lemma split_nonempty d (b : str) : split [d] b <> [].
Proof. destruct (split_fields d b) as [H _]. exact H. Qed.
Lemma text_rows_iff delim skip text rows : text_rows delim skip text rows <-> kept_rows delim skip text = rows.
Proof.
  assert (F : forall d bodies, filter (fun f : list str => match f with [] => false | _ => true end) (map (fun b => match b with [] => [] | _ => split [d] b end) bodies) =
    map (split [d]) (filter (fun b => match b with [] => false | _ => true end) bodies)).
  { intros d bodies. induction bodies as [|b l IH]; [reflexivity|]. cbn [map filter]. destruct b as [|c b]; [exact IH|]. cbn [map]. destruct (split [d] (c :: b)) as [|f fs] eqn:E; [elim (split_nonempty _ _ E)|]. rewrite IH. reflexivity. }
  assert (Sel : forall (A : Type) (l : list (list A)), selected (fun b => b <> []) l (filter (fun b => match b with [] => false | _ => true end) l)).
  { intros A l. apply filter_selected. intros a _. destruct a; split; try discriminate; congruence. }
  unfold text_rows, kept_rows. split.
  - intros (lines & head & rest & bodies & Hl & -> & Hh & Hb & H). rewrite (readlines_lines _ _ Hl), (skipn_head _ _ _ _ Hh).
    assert (Eb : map (fun l => uncomment (chomp l)) rest = bodies) by (apply (Forall2_map_same _ _ _ _ _ _ before_comment_ok Hb)).
    destruct delim as [d|].
    + destruct H as (kept & Hs & Hf). replace (map (txt_fields (Some d)) rest) with (map (fun b => match b with [] => [] | _ => split [d] b end) bodies) by (rewrite <- Eb, map_map; reflexivity).
      rewrite F. rewrite (L_ReadNav.selected_fun _ _ _ _ _ (Sel _ bodies) Hs). apply (Forall2_map_same _ _ _ _ _ _ (fun a b => fields_split d a b) Hf).
    + destruct H as (wss & Hw & Hs). replace (map (txt_fields None) rest) with (map words bodies) by (rewrite <- Eb, map_map; reflexivity).
      rewrite (Forall2_map_same _ _ _ _ _ _ (fun a b => words_spec a b) Hw). apply (L_ReadNav.selected_fun _ _ _ _ _ (Sel _ wss) Hs).
  - intros <-. destruct (lines_exist text) as [ls [Hl ->]]. exists ls, (firstn skip ls), (skipn skip ls), (map (fun l => uncomment (chomp l)) (skipn skip ls)).
    split; [exact Hl|]. split; [symmetry; apply firstn_skipn|]. split; [apply firstn_skip_length|]. split.
    { pose proof (Forall2_skipn _ _ _ skip _ _ (lines_bodies _ _ Hl)) as Hb. rewrite skipn_map in Hb. clear Hl. remember (map chomp (skipn skip ls)) as bs eqn:Eb. revert Eb.
      induction Hb as [|l b ls' bs' Hb _ IH]; intros Eb; [constructor|]. cbn [map] in *. injection Eb as Eb1 Eb2. constructor; [|apply IH; exact Eb2]. exists b. split; [exact Hb|]. subst b. apply uncomment_spec. }
    destruct delim as [d|].
    + exists (filter (fun b => match b with [] => false | _ => true end) (map (fun l => uncomment (chomp l)) (skipn skip ls))). split; [apply Sel|].
      replace (map (txt_fields (Some d)) (skipn skip ls)) with (map (fun b => match b with [] => [] | _ => split [d] b end) (map (fun l => uncomment (chomp l)) (skipn skip ls))) by (rewrite map_map; reflexivity).
      rewrite F. apply Forall2_map_r. intros a _. apply split_fields.
    + exists (map words (map (fun l => uncomment (chomp l)) (skipn skip ls))). split; [apply Forall2_map_r; intros a _; apply words_ok|].
      replace (map (txt_fields None) (skipn skip ls)) with (map words (map (fun l => uncomment (chomp l)) (skipn skip ls))) by (rewrite map_map; reflexivity). apply Sel.
Qed.
Lemma in_set_in s c : in_set s c = true <-> In c s.
Proof.
  unfold in_set. rewrite existsb_exists. split; [intros (x & Hx & E); apply Ascii.eqb_eq in E; subst; exact Hx|]. intros H. exists c. split; [exact H|apply Ascii.eqb_refl].
Qed.
Lemma txt_value_ok col row s : cell_number col row s -> exists v, txt_value col row = Ok v /\ value_of s (finite_value v).
Proof.
  intros (E & F & N). unfold txt_value. rewrite E. destruct (in_set s "_") eqn:I; [elim N; apply in_set_in; exact I|]. apply py_float_spec in F. destruct F as [v Hv]. exists v. split; [exact Hv|].
  destruct v as [m e|b|]; cbn [finite_value value_of]; [apply py_float_dec; exact Hv|apply (py_float_special _ _ Hv); reflexivity|apply (py_float_special _ _ Hv); reflexivity].
Qed.
Lemma txt_value_bad col row : (forall s, ~ cell_number col row s) -> txt_value col row = Raise ValueError.
Proof.
  intros H. unfold txt_value. destruct (nth_error row col) as [s|] eqn:E; [|reflexivity]. destruct (in_set s "_") eqn:I; [reflexivity|]. destruct (py_float s) as [v|e] eqn:Ef.
  - elim (H s). split; [exact E|]. split; [apply py_float_spec; exists v; exact Ef|]. intros K. apply in_set_in in K. congruence.
  - f_equal. symmetry. exact (proj2 (C108_numbers s) e Ef).
Qed.
(** C115: the column of numbers of a text; a row without a number there stops the reading. *)
Theorem C115_file : forall delim skip col text, exists rows, (forall r, text_rows delim skip text r <-> r = rows) /\
  (Forall (fun r => exists s, cell_number col r s) rows -> exists vals, loadtxt delim skip col text = Ok (match vals with [v] => Scalar v | _ => Vector vals end) /\
     Forall2 (fun r v => exists s, nth_error r col = Some s /\ value_of s (finite_value v)) rows vals) /\
  (Exists (fun r => forall s, ~ cell_number col r s) rows -> loadtxt delim skip col text = Raise ValueError).
Proof.
  intros delim skip col text. exists (kept_rows delim skip text). split; [intros r; rewrite text_rows_iff; split; intros; congruence|]. unfold loadtxt. fold (kept_rows delim skip text).
  generalize (kept_rows delim skip text). intros rows. split.
  - intros F. assert (X : exists vals, mapM (txt_value col) rows = Ok vals /\ Forall2 (fun r v => exists s, nth_error r col = Some s /\ value_of s (finite_value v)) rows vals).
    { induction F as [|r rows (s & Hs) _ IH]; [exists []; split; [reflexivity|constructor]|]. destruct IH as (vals & E & H). destruct (txt_value_ok _ _ _ Hs) as (v & Ev & Hv).
      exists (v :: vals). cbn [mapM]. rewrite Ev. cbn [bind]. rewrite E. split; [reflexivity|]. constructor; [exists s; split; [exact (proj1 Hs)|exact Hv]|exact H]. }
    destruct X as (vals & E & H). exists vals. rewrite E. split; [reflexivity|exact H].
  - intros X. rewrite (mapM_one_error _ _ (txt_value col) ValueError); [reflexivity| |].
    + intros r _. unfold txt_value. destruct (nth_error r col) as [s|]; [|right; reflexivity]. destruct (in_set s "_"); [right; reflexivity|].
      destruct (py_float s) as [v|e] eqn:Ef; [left; exists v; reflexivity|right; rewrite <- (proj2 (C108_numbers s) e Ef); reflexivity].
    + apply Exists_exists in X. destruct X as (r & Hr & H). apply Exists_exists. exists r. split; [exact Hr|]. apply txt_value_bad. exact H.
Qed.
Print Assumptions C115_file.

(** ** The points *)
Lemma nth_error_slice (A : Type) (l : list A) a b k : (k < b - a)%nat -> nth_error (slice l a b) k = nth_error l (a + k).
Proof.
  intros H. unfold slice. generalize dependent (b - a)%nat. intros n. revert n k. induction a as [|a IH] in l |- *; intros n k H.
  - cbn [skipn Nat.add]. revert n k H. induction l as [|x l IHl]; intros n k H; [rewrite firstn_nil; destruct k; reflexivity|]. destruct n as [|n]; [lia|]. destruct k as [|k]; [reflexivity|]. cbn [firstn nth_error]. apply IHl. lia.
  - destruct l as [|x l]; [rewrite skipn_nil, firstn_nil; destruct k; reflexivity|]. cbn [skipn Nat.add nth_error]. apply IH. exact H.
Qed.
Lemma nth_error_skip (A : Type) (l : list A) a k : nth_error (skipn a l) k = nth_error l (a + k).
Proof. revert l. induction a as [|a IH]; intros l; [reflexivity|]. destruct l as [|x l]; [destruct k; reflexivity|]. apply IH. Qed.
Lemma trim_length (A : Type) (a : list A) : len (trim a) = (len a - 720)%nat.
Proof. unfold trim. rewrite slice_length. unfold script_taps. lia. Qed.
Lemma nth_error_trim (A : Type) (a : list A) k : (k < len a - 720)%nat -> nth_error (trim a) k = nth_error a (480 + k).
Proof. intros H. unfold trim. apply nth_error_slice. unfold script_taps. lia. Qed.
Lemma nth_error_combine (A B : Type) (a : list A) (b : list B) k x y : nth_error a k = Some x -> nth_error b k = Some y -> nth_error (combine a b) k = Some (x, y).
Proof. revert b k. induction a as [|p a IH]; intros b k H K; [destruct k; discriminate|]. destruct b as [|q b]; [destruct k; discriminate|]. destruct k as [|k]; [cbn in *; congruence|]. apply IH; assumption. Qed.
(** the times of a rearranged table *)
Definition times_in_order (us : list Z) (idx : list nat) (dt : list cell) : Prop :=
  len dt = len us /\ forall k, (k < len us)%nat -> exists t, nth_error dt k = Some (Time t) /\ (t == nth (nth k idx 0%nat) us 0%Z # 1000000)%Q.
Lemma table_times T us gs idx T' : meter_table T us gs -> time_order us idx -> rearranged idx T T' -> exists dt, get_column T' (lit "date_time") = Ok dt /\ times_in_order us idx dt.
Proof.
  intros (HT & (ts & Hd & Ht) & _) O Rr. destruct (rearranged_column idx T T' (len us) _ _ HT Rr Hd) as (_ & _ & E). eexists. split; [exact E|].
  destruct O as [O _]. pose proof (Permutation_length O) as L. rewrite seq_length in L. pose proof (permutation_below _ _ O) as Bi. split; [rewrite map_length; exact L|].
  intros k Hk. destruct (nth_error idx k) as [i|] eqn:Ei; [|apply nth_error_None in Ei; lia]. rewrite nth_error_map, Ei. cbn [option_map]. rewrite (nth_error_nth idx k 0%nat Ei).
  assert (Hi : (i < len us)%nat) by (rewrite Forall_forall in Bi; apply Bi; apply nth_error_In in Ei; exact Ei).
  assert (Lt : len ts = len us) by (symmetry; eapply F2_len; exact Ht).
  exists (nth i ts 0%Q). split; [f_equal; rewrite (nth_indep _ NaN (Time 0%Q)) by (rewrite map_length; lia); rewrite map_nth; reflexivity|].
  apply (Forall2_nth_total _ _ (fun t i => t == i # 1000000)%Q); [exact Ht|lia].
Qed.
Lemma draw (V : Type) us idx dt drop (y : list V) : times_in_order us idx dt -> (720 < len us - drop)%nat ->
  (len y = len us - drop -> exists p, plot (trim (skipn drop dt)) (trim y) = Ok p /\ drawn_part us idx drop (len us - drop) (fun k v => nth_error y (480 + k) = Some v) p)%nat /\
  (len y <> len us - drop -> plot (trim (skipn drop dt)) (trim y) = Raise ValueError)%nat.
Proof.
  intros (L & H) N. unfold plot. rewrite !trim_length, skipn_length, L. split; intros Ly.
  - rewrite Ly, Nat.eqb_refl. eexists. split; [reflexivity|]. split; [rewrite combine_length, !trim_length, skipn_length, L, Ly; apply Nat.min_id|].
    intros k Hk. destruct (H (drop + 480 + k)%nat) as (t & Et & Ht); [lia|]. destruct (nth_error y (480 + k)) as [v|] eqn:Ev; [|apply nth_error_None in Ev; lia].
    exists t, v. split; [|split; [exact Ht|reflexivity]]. apply nth_error_combine.
    + rewrite nth_error_trim by (rewrite skipn_length; lia). rewrite nth_error_skip, Nat.add_assoc. exact Et.
    + rewrite nth_error_trim by lia. exact Ev.
  - destruct (Nat.eqb_spec (len us - drop - 720) (len y - 720)); [lia|reflexivity].
Qed.
Lemma drawn_impl (V : Type) us idx from n (P Q : nat -> V -> Prop) p : (forall k v, (k < n - 720)%nat -> P k v -> Q k v) -> drawn_part us idx from n P p -> drawn_part us idx from n Q p.
Proof. intros I (L & H). split; [exact L|]. intros k Hk. destruct (H k Hk) as (t & v & E & Et & Pv). exists t, v. auto. Qed.
Lemma anomaly_drawn data us idx dt drop faa : get_column data (lit "date_time") = Ok dt -> times_in_order us idx dt -> (720 < len us - drop)%nat -> len faa = (len us - drop)%nat ->
  exists p, plot_anomaly data drop faa = Ok p /\ drawn_part us idx drop (len us - drop) (fun k v => nth_error faa (480 + k) = Some v) p.
Proof. intros E H N L. unfold plot_anomaly. rewrite E. cbn [bind]. exact (proj1 (draw _ us idx dt drop faa H N) L). Qed.

(** ** The satellite values beside them *)
Lemma satellite_drawn delim skip col drop text rows data us idx dt : text_rows delim skip text rows -> get_column data (lit "date_time") = Ok dt -> times_in_order us idx dt -> (720 < len us - drop)%nat ->
  (Exists (fun r => forall s, ~ cell_number col r s) rows -> loadtxt delim skip col text = Raise ValueError) /\
  (Forall (fun r => exists s, cell_number col r s) rows ->
     (len rows = 1 -> exists v, loadtxt delim skip col text = Ok (Scalar v))%nat /\
     (len rows <> 1 -> exists vals, loadtxt delim skip col text = Ok (Vector vals) /\
       (len rows <> len us -> plot_satellite data drop (Vector (skipn drop vals)) = Raise ValueError) /\
       (len rows = len us -> exists p, plot_satellite data drop (Vector (skipn drop vals)) = Ok p /\
          drawn_part us idx drop (len us - drop) (fun k v => row_value rows col (drop + 480 + k) v) p))%nat).
Proof.
  intros Hr Ed Ht N. destruct (C115_file delim skip col text) as (rows' & Hu & Hok & Hbad). apply Hu in Hr. subst rows'. split; [exact Hbad|].
  intros F. destruct (Hok F) as (vals & E & V). assert (L : len vals = len rows) by (eapply F2_len; exact V). split.
  - intros L1. rewrite L1 in L. destruct vals as [|v [|w vals]]; try discriminate L. exists v. exact E.
  - intros L1. exists vals. split; [rewrite E; destruct vals as [|v [|w vals]]; [reflexivity| |reflexivity]; cbn in L; congruence|].
    unfold plot_satellite. rewrite Ed. cbn [bind sliced]. destruct (draw _ us idx dt drop (skipn drop vals) Ht N) as [D1 D2]. rewrite skipn_length, L in D1, D2. split.
    + intros Hn. apply D2. lia.
    + intros He. destruct D1 as (p & Ep & Dp); [lia|]. exists p. split; [exact Ep|]. apply (drawn_impl _ _ _ _ _ _ _ _ (fun k v _ K => K)) in Dp. revert Dp. apply drawn_impl.
      intros k v Hk K. rewrite nth_error_skip, Nat.add_assoc in K. destruct (nth_error rows (drop + 480 + k)) as [r|] eqn:Er.
      * destruct (Forall2_nth_error_l _ _ _ _ _ _ _ V Er) as (v' & Ev & s & Es & Vs). assert (v' = v) as -> by congruence. exists r, s. auto.
      * apply nth_error_None in Er. assert (nth_error vals (drop + 480 + k) <> None) as X by congruence. apply nth_error_Some in X. lia.
Qed.

(** ** The scripts *)
Lemma nav_runs fsys ship talker tk clean paths files : known_ship ship -> talker_for ship talker tk -> Forall2 (provides fsys ship tk None) paths files ->
  exists nav, script_nav fsys ship talker clean paths = Ok nav.
Proof.
  intros Hs Ht Hp. destruct (C60_table fsys ship paths 1 talker None 0 tk files R1_neq_R0 (fun _ => Hs) Ht Hp) as (rows & pre & E & _).
  unfold script_nav. match goal with |- exists _, bind ?r _ = _ => replace r with (Ok (Table rows)) by (symmetry; exact E) end. eexists. reflexivity.
Qed.
Lemma anomaly_runs argsort T us gs nav bias samp : sorts argsort -> meter_table T us gs -> (3 <= len us)%nat ->
  exists idx T' m faa full, script_meter argsort (Ok (Some T)) = Ok m /\ script_anomaly nav bias samp m = Ok (T', faa, full) /\ time_order us idx /\ rearranged idx T T' /\ len faa = len us.
Proof.
  intros So M H3. destruct (script_meter_us argsort T us gs So M) as (idx & D' & times & Em & O & Rr & Ft & Et).
  assert (Li : len idx = len us) by (destruct O as [O _]; apply Permutation_length in O; rewrite seq_length in O; exact O).
  assert (Lt : len times = len us). { pose proof (F2_len _ _ _ _ _ Ft) as L. rewrite map_length in L. lia. }
  assert (Aw : Forall (fun t => utcoffset t <> None) times).
  { clear -Ft. remember (map (fun i => nth i us 0) idx) as l eqn:El. clear El. induction Ft as [|i t l ts H _ IH]; constructor; [|exact IH].
    apply utc_of_time in H. apply utc_time_us in H. destruct H as [H _]. congruence. }
  assert (Q : exists tsec, mapM timestamp times = Ok tsec /\ len tsec = len us).
  { clear - Ft Lt. rewrite <- Lt. clear Lt. revert times Ft. induction idx as [|i idx IH]; intros times Ft; inversion Ft as [|c d cs ds Hc Ft' E1 E2]; subst.
    - exists []. split; reflexivity.
    - destruct (IH ds Ft') as (tsec & I1 & I2). apply utc_of_time in Hc. apply utc_time_us in Hc. destruct Hc as [Hc Hc'].
      exists (IZR (nth i us 0%Z) / 1000000 :: tsec)%R. split; [cbn [mapM]; unfold timestamp at 1; rewrite Hc, Hc'; cbn [bind]; rewrite I1; reflexivity|].
      cbn [len]; rewrite I2; reflexivity. }
  destruct Q as (tsec & Ets & Lts). set (rg := map (fun i => Q2R (nth i gs 0%Q)) idx) in Em. set (g := map (fun x => nf2 Rplus x (K bias)) (map Some rg)).
  set (lon := map (interp1d (map f_time nav) (map f_lon nav)) tsec). set (lat := map (interp1d (map f_time nav) (map f_lat nav)) tsec).
  assert (Lg : len g = len us) by (unfold g, rg; rewrite !map_length; exact Li).
  assert (Lo : len lon = len us) by (unfold lon; rewrite map_length; exact Lts). assert (La : len lat = len us) by (unfold lat; rewrite map_length; exact Lts).
  destruct (corrected_shift g g lon lat times samp (len us) Lg Lg Lo La Lt H3 Aw) as (f & u & f' & u' & Ec & _ & Lf & _).
  { intros k Hk. destruct (nth_error idx k) as [i|] eqn:Ei; [|apply nth_error_None in Ei; lia]. do 2 eexists. split; unfold g, rg; rewrite !nth_error_map, Ei; reflexivity. }
  exists idx, D', (D', times, map Some rg), f, u. split; [exact Em|]. split; [|auto].
  cbn [script_anomaly]. unfold faa_script_nan. rewrite Ets. cbn [bind sync]. fold g. fold lon. fold lat.
  match goal with |- bind ?r _ = _ => replace r with (Ok (f, u)) by (symmetry; exact Ec) end. reflexivity.
Qed.

(** dgs_raw_comp.py: the anomaly and the satellite values, row by row of the records in time order. *)
Theorem C115_raw : forall argsort fsys td ship tk nav_paths files dgs_paths T us gs bias sat,
  sorts argsort -> known_ship ship -> talker_for ship (Some (lit "GPGGA")) tk -> Forall2 (provides fsys ship tk None) nav_paths files ->
  read_dgs_laptop fsys td dgs_paths ship None = Ok (Some T) -> meter_table T us gs -> (1440 < len us)%nat ->
  exists idx T' faa full ffaa, time_order us idx /\ rearranged idx T T' /\
    dgs_script argsort fsys td ship (Some (lit "GPGGA")) false nav_paths dgs_paths bias 1 = Ok (T', faa, full) /\ script_filter_nan faa = Ok ffaa /\ len ffaa = len us /\
    let script := raw_plot argsort fsys td ship nav_paths dgs_paths bias sat in
    (fsys sat = None -> script = Raise FileNotFoundError) /\
    (forall text rows, fsys sat = Some text -> text_rows None 0 text rows ->
       (Exists (fun r => forall s, ~ cell_number 2 r s) rows -> script = Raise ValueError) /\
       (Forall (fun r => exists s, cell_number 2 r s) rows ->
          (len rows = 1%nat -> script = Raise IndexError) /\
          (len rows <> 1%nat -> len rows <> len us -> script = Raise ValueError) /\
          (len rows = len us -> exists p1 p2, script = Ok (p1, p2) /\
             drawn_part us idx 0 (len us) (fun k v => nth_error ffaa (480 + k) = Some v) p1 /\
             drawn_part us idx 0 (len us) (fun k v => row_value rows 2 (480 + k) v) p2))).
Proof.
  intros argsort fsys td ship tk nav_paths files dgs_paths T us gs bias sat So Hs Ht Hp Hr M H.
  destruct (nav_runs fsys ship _ tk false nav_paths files Hs Ht Hp) as [nav En].
  destruct (anomaly_runs argsort T us gs nav bias 1 So M) as (idx & T' & m & faa & full & Em & Ea & O & Rr & Lf); [lia|].
  destruct (proj2 (C95_missing faa)) as (ffaa & Ef & Lff & _); [lia|].
  assert (Es : dgs_script argsort fsys td ship (Some (lit "GPGGA")) false nav_paths dgs_paths bias 1 = Ok (T', faa, full)) by (unfold dgs_script; rewrite En; cbn [bind]; rewrite Hr, Em; exact Ea).
  destruct (table_times T us gs idx T' M O Rr) as (dt & Ed & Hdt).
  exists idx, T', faa, full, ffaa. split; [exact O|]. split; [exact Rr|]. split; [exact Es|]. split; [exact Ef|]. split; [lia|]. cbv zeta. unfold raw_plot. rewrite Es. cbn [bind]. rewrite Ef. cbn [bind]. unfold open_text. split.
  { intros ->. reflexivity. }
  intros text rows -> Htr. cbn [bind]. destruct (anomaly_drawn T' us idx dt 0 ffaa Ed Hdt) as (p1 & E1 & D1); [lia|lia|].
  destruct (satellite_drawn None 0 2 0 text rows T' us idx dt Htr Ed Hdt) as [S1 S2]; [lia|]. split.
  { intros X. rewrite (S1 X). reflexivity. }
  intros F. destruct (S2 F) as [S3 S4]. rewrite E1. split; [|split].
  - intros L1. destruct (S3 L1) as (v & ->). cbn [bind]. unfold plot_satellite. rewrite Ed. reflexivity.
  - intros L1 L2. destruct (S4 L1) as (vals & -> & S5 & _). cbn [bind skipn] in *. rewrite (S5 L2). reflexivity.
  - intros L2. destruct S4 as (vals & -> & _ & S6); [lia|]. destruct (S6 L2) as (p2 & E2 & D2). cbn [bind skipn] in *. rewrite E2. exists p1, p2. rewrite Nat.sub_0_r in D1, D2. split; [reflexivity|]. split; [exact D1|exact D2].
Qed.
Print Assumptions C115_raw.

(** dgs_bgm_comp.py: both anomalies, each over the times of its meter; the satellite values over the times of the laptop records. *)
Theorem C115_meters : forall argsort fsys td ship tk nav_paths files dgs_paths bgm_paths D us gs B vs hs bias_d bias_b sat,
  sorts argsort -> talker_for ship None tk -> Forall2 (provides fsys ship tk None) nav_paths files ->
  read_dgs_laptop fsys td dgs_paths ship None = Ok (Some D) -> meter_table D us gs -> (1440 < len us)%nat ->
  read_bgm_raw fsys td bgm_paths ship None None = Ok (Some B) -> meter_table B vs hs -> (1440 < len vs)%nat ->
  exists idx jdx D' B' faa_d full_d faa_b full_b dfaa bfaa, time_order us idx /\ time_order vs jdx /\ rearranged idx D D' /\ rearranged jdx B B' /\
    dgs_bgm_script argsort fsys td ship nav_paths dgs_paths bgm_paths bias_d bias_b 1 = Ok ((D', faa_d, full_d), (B', faa_b, full_b)) /\
    script_filter_nan faa_d = Ok dfaa /\ script_filter_nan faa_b = Ok bfaa /\ len dfaa = len us /\ len bfaa = len vs /\
    let script := meters_plot argsort fsys td ship nav_paths dgs_paths bgm_paths bias_d bias_b sat in
    (fsys sat = None -> script = Raise FileNotFoundError) /\
    (forall text rows, fsys sat = Some text -> text_rows (Some ","%char) 1 text rows ->
       (Exists (fun r => forall s, ~ cell_number 3 r s) rows -> script = Raise ValueError) /\
       (Forall (fun r => exists s, cell_number 3 r s) rows ->
          (len rows = 1%nat -> script = Raise IndexError) /\
          (len rows <> 1%nat -> len rows <> len us -> script = Raise ValueError) /\
          (len rows = len us -> exists p1 p2 p3, script = Ok (p1, p2, p3) /\
             drawn_part us idx 0 (len us) (fun k v => nth_error dfaa (480 + k) = Some v) p1 /\
             drawn_part vs jdx 0 (len vs) (fun k v => nth_error bfaa (480 + k) = Some v) p2 /\
             drawn_part us idx 0 (len us) (fun k v => row_value rows 3 (480 + k) v) p3))).
Proof.
  intros argsort fsys td ship tk nav_paths files dgs_paths bgm_paths D us gs B vs hs bias_d bias_b sat So Ht Hp Hr M H Hr' M' H'.
  assert (Hs : known_ship ship) by (exists tk; exact Ht).
  destruct (nav_runs fsys ship _ tk true nav_paths files Hs Ht Hp) as [nav En].
  destruct (anomaly_runs argsort D us gs nav bias_d 1 So M) as (idx & D' & m & faa_d & full_d & Em & Ea & O & Rr & Lf); [lia|].
  destruct (anomaly_runs argsort B vs hs nav bias_b 1 So M') as (jdx & B' & m' & faa_b & full_b & Em' & Ea' & O' & Rr' & Lf'); [lia|].
  destruct (proj2 (C95_missing faa_d)) as (dfaa & Ef & Lff & _); [lia|]. destruct (proj2 (C95_missing faa_b)) as (bfaa & Ef' & Lff' & _); [lia|].
  assert (Es : dgs_bgm_script argsort fsys td ship nav_paths dgs_paths bgm_paths bias_d bias_b 1 = Ok ((D', faa_d, full_d), (B', faa_b, full_b)))
    by (unfold dgs_bgm_script; rewrite En; cbn [bind]; rewrite Hr, Em; cbn [bind]; rewrite Hr', Em'; cbn [bind]; rewrite Ea; cbn [bind]; rewrite Ea'; reflexivity).
  destruct (table_times D us gs idx D' M O Rr) as (dt & Ed & Hdt). destruct (table_times B vs hs jdx B' M' O' Rr') as (dt' & Ed' & Hdt').
  exists idx, jdx, D', B', faa_d, full_d, faa_b, full_b, dfaa, bfaa. do 4 (split; [assumption|]). split; [exact Es|]. split; [exact Ef|]. split; [exact Ef'|]. split; [lia|]. split; [lia|].
  cbv zeta. unfold meters_plot. rewrite Es. cbn [bind]. rewrite Ef. cbn [bind]. rewrite Ef'. cbn [bind]. unfold open_text. split.
  { intros ->. reflexivity. }
  intros text rows -> Htr. cbn [bind]. destruct (anomaly_drawn D' us idx dt 0 dfaa Ed Hdt) as (p1 & E1 & D1); [lia|lia|]. destruct (anomaly_drawn B' vs jdx dt' 0 bfaa Ed' Hdt') as (p2 & E2 & D2); [lia|lia|].
  destruct (satellite_drawn (Some ","%char) 1 3 0 text rows D' us idx dt Htr Ed Hdt) as [S1 S2]; [lia|]. split.
  { intros X. rewrite (S1 X). reflexivity. }
  intros F. destruct (S2 F) as [S3 S4]. rewrite E1, E2. split; [|split].
  - intros L1. destruct (S3 L1) as (v & ->). cbn [bind]. unfold plot_satellite. rewrite Ed. reflexivity.
  - intros L1 L2. destruct (S4 L1) as (vals & -> & S5 & _). cbn [bind skipn] in *. rewrite (S5 L2). reflexivity.
  - intros L2. destruct S4 as (vals & -> & _ & S6); [lia|]. destruct (S6 L2) as (p3 & E3 & D3). cbn [bind skipn] in *. rewrite E3. exists p1, p2, p3. rewrite Nat.sub_0_r in D1, D2, D3. auto.
Qed.
Print Assumptions C115_meters.

(** ** dgs_ccp_calc.py *)
Lemma finite_length l l' : finite l = Some l' -> len l' = len l.
Proof.
  revert l'. induction l as [|o l IH]; intros l' E; [injection E as <-; reflexivity|]. cbn [finite fold_right] in E. fold (finite l) in E. destruct o as [x|]; [|discriminate]. destruct (finite l) as [t|]; [|discriminate].
  injection E as <-. cbn [len]. rewrite (IH t eq_refl). reflexivity.
Qed.
Lemma ccp_script_data argsort fsys td ship nav_paths dgs_paths bias samp T us gs r : sorts argsort -> read_dgs_laptop fsys td dgs_paths ship None = Ok (Some T) -> meter_table T us gs -> (3 <= len us)%nat ->
  ccp_script argsort fsys td ship nav_paths dgs_paths bias samp = Some (Ok r) -> exists idx, time_order us idx /\ rearranged idx T (c_data r) /\ len (c_faa r) = len us.
Proof.
  intros So Hr M H3. unfold ccp_script. destruct (script_nav _ _ _ _ _) as [nav|]; cbn [andthen]; [|discriminate]. rewrite Hr.
  destruct (anomaly_runs argsort T us gs nav bias samp So M H3) as (idx & T' & m & faa & full & Em & Ea & O & Rr & Lf). rewrite Em. cbn [andthen]. rewrite Ea. cbn [andthen].
  destruct (mapM timestamp _) as [tsec|]; cbn [andthen]; [|discriminate]. cbn [fst snd].
  destruct (finite (fst _)) as [lon|]; [|discriminate]. destruct (finite (snd _)) as [lat|]; [|discriminate]. destruct (finite faa) as [f|] eqn:Ef; [|discriminate].
  destruct (level_script _ _ _ _) as [lev|]; cbn [andthen]; [|discriminate].
  do 4 (destruct (numbers _ _) as [[?|]|]; cbn [andthen]; try discriminate).
  destruct (ccp_table _ _ _ _ _ _) as [df|] eqn:E; cbn [andthen]; [|discriminate]. intros X.
  apply (f_equal (fun o => match o with Some (Ok r) => r | _ => r end)) in X. cbn beta iota in X. subst r. exists idx. split; [exact O|]. split; [exact Rr|]. cbn [c_faa]. rewrite (finite_length _ _ Ef). exact Lf.
Qed.
(** The first two rows are left out of the anomalies, of the times and of the satellite values. *)
Theorem C115_ccp : forall argsort fsys td ship nav_paths dgs_paths T us gs bias params sat r,
  sorts argsort -> read_dgs_laptop fsys td dgs_paths ship None = Ok (Some T) -> meter_table T us gs ->
  ccp_script argsort fsys td ship nav_paths dgs_paths bias 1 = Some (Ok r) -> (3 <= len us)%nat ->
  let script := ccp_plot argsort fsys td ship nav_paths dgs_paths bias params sat in
  ((len us <= 1442)%nat -> script = Some (Raise ValueError)) /\
  ((1442 < len us)%nat -> exists idx ffaa cfaa, time_order us idx /\ rearranged idx T (c_data r) /\
    script_filter (skipn 2 (c_faa r)) = Ok ffaa /\ script_filter (ccp_anomaly r params) = Ok cfaa /\ len ffaa = (len us - 2)%nat /\ len cfaa = (len us - 2)%nat /\
    (fsys sat = None -> script = Some (Raise FileNotFoundError)) /\
    (forall text rows, fsys sat = Some text -> text_rows (Some ","%char) 1 text rows ->
       (Exists (fun r => forall s, ~ cell_number 3 r s) rows -> script = Some (Raise ValueError)) /\
       (Forall (fun r => exists s, cell_number 3 r s) rows ->
          (len rows = 1%nat -> script = Some (Raise IndexError)) /\
          (len rows <> 1%nat -> len rows <> len us -> script = Some (Raise ValueError)) /\
          (len rows = len us -> exists p1 p2 p3, script = Some (Ok (p1, p2, p3)) /\
             drawn_part us idx 2 (len us - 2) (fun k v => exists a, v = Some a /\ nth_error ffaa (480 + k) = Some a) p1 /\
             drawn_part us idx 2 (len us - 2) (fun k v => exists a, v = Some a /\ nth_error cfaa (480 + k) = Some a) p2 /\
             drawn_part us idx 2 (len us - 2) (fun k v => row_value rows 3 (482 + k) v) p3)))).
Proof.
  intros argsort fsys td ship nav_paths dgs_paths T us gs bias params sat r So Hr M Es H3. cbv zeta. unfold ccp_plot. rewrite Es. cbn [andthen].
  destruct (ccp_script_data _ _ _ _ _ _ _ _ T us gs r So Hr M H3 Es) as (idx & O & Rr & L).
  assert (Ls : len (skipn 2 (c_faa r)) = (len us - 2)%nat) by (rewrite skipn_length, L; reflexivity).
  assert (Lc : len (ccp_anomaly r params) = (len us - 2)%nat) by (unfold ccp_anomaly, faa_ccp; rewrite map_length, seq_length; exact Ls). clear Es. split.
  { intros Sh. unfold script_filter at 1. rewrite (filtfilt_short script_B) by (rewrite script_B_length; lia). reflexivity. }
  intros H. destruct (script_filter_fb (skipn 2 (c_faa r))) as (ffaa & E1 & L1 & _); [lia|]. destruct (script_filter_fb (ccp_anomaly r params)) as (cfaa & E2 & L2 & _); [lia|].
  exists idx, ffaa, cfaa. split; [exact O|]. split; [exact Rr|]. split; [exact E1|]. split; [exact E2|]. split; [lia|]. split; [lia|]. rewrite E1, E2. cbn [bind]. unfold open_text. split; [intros ->; reflexivity|].
  intros text rows -> Htr. cbn [bind]. destruct (table_times T us gs idx (c_data r) M O Rr) as (dt & Ed & Hdt).
  destruct (anomaly_drawn (c_data r) us idx dt 2 (map Some ffaa) Ed Hdt) as (p1 & P1 & D1); [lia|rewrite map_length; lia|].
  destruct (anomaly_drawn (c_data r) us idx dt 2 (map Some cfaa) Ed Hdt) as (p2 & P2 & D2); [lia|rewrite map_length; lia|].
  destruct (satellite_drawn (Some ","%char) 1 3 2 text rows (c_data r) us idx dt Htr Ed Hdt) as [S1 S2]; [lia|]. split.
  { intros X. rewrite (S1 X). reflexivity. }
  intros F. destruct (S2 F) as [S3 S4]. split; [|split].
  - intros Q1. destruct (S3 Q1) as (v & ->). reflexivity.
  - intros Q1 Q2. destruct (S4 Q1) as (vals & -> & S5 & _). cbn [bind sliced]. rewrite P1, P2. cbn [bind]. rewrite (S5 Q2). reflexivity.
  - intros Q2. destruct S4 as (vals & -> & _ & S6); [lia|]. destruct (S6 Q2) as (p3 & P3 & D3). cbn [bind sliced]. rewrite P1, P2. cbn [bind]. rewrite P3. exists p1, p2, p3. split; [reflexivity|].
    split; [revert D1; apply drawn_impl; intros k v _ K; rewrite nth_error_map in K; destruct (nth_error ffaa (480 + k)) as [a|]; cbn in K; [|discriminate]; exists a; split; congruence|].
    split; [revert D2; apply drawn_impl; intros k v _ K; rewrite nth_error_map in K; destruct (nth_error cfaa (480 + k)) as [a|]; cbn in K; [|discriminate]; exists a; split; congruence|]. exact D3.
Qed.
Print Assumptions C115_ccp.
