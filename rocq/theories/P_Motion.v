(** C113: example-scripts/mru_coherence.py from its files to the curves that it plots. *)
From Coq Require Import ZArith QArith Reals Qreals Lra Lia Ascii String Arith Bool Sorted Permutation List.
From Verif Require Import M_Py M_Np M_Str M_Cal M_Ini M_Nmea M_ReadNav M_Table M_Other M_Serial M_Bgm M_Dgs M_Faa M_Nan M_Script M_Mru M_Coh M_Motion.
From Verif Require Import S_Base S_Str S_Cal S_Nmea S_ReadNav S_Table S_Bgm S_Faa S_Nan S_Script S_Other S_Serial S_Mru S_Coh S_Motion.
From Verif Require Import L_Base L_Np L_Str L_Table L_Other L_Coh L_Script P_Faa P_Nan P_Serial P_Script P_Mru P_Coh.
Import ListNotations.
Notation len := List.length.

(** ** One curve *)
Lemma Rsum_same n f g : (forall i, (i < n)%nat -> f i = g i) -> Rsum n f = Rsum n g.
Proof. intros H. apply Rsum_ext. exact H. Qed.
Lemma four_same N s x y f k : (forall j, (j < N)%nat -> nth (k * s + j) x 0 = nth (k * s + j) y 0)%R -> four_re N s x f k = four_re N s y f k /\ four_im N s x f k = four_im N s y f k.
Proof.
  intros H. assert (M : seg_mean x N (k * s) = seg_mean y N (k * s)). { unfold seg_mean. f_equal. apply Rsum_same. exact H. }
  unfold four_re, four_im. split; [|f_equal]; apply Rsum_same; intros j Hj; rewrite M, (H j Hj); reflexivity.
Qed.
Lemma power_same N s K x y f : (forall k j, (k < K)%nat -> (j < N)%nat -> nth (k * s + j) x 0 = nth (k * s + j) y 0)%R -> power N s K x f = power N s K y f.
Proof. intros H. unfold power. apply Rsum_same. intros k Hk. destruct (four_same N s x y f k) as [-> ->]; [intros j Hj; apply H; assumption|reflexivity]. Qed.
Lemma msc_same N s K x y z f : (forall k j, (k < K)%nat -> (j < N)%nat -> nth (k * s + j) x 0 = nth (k * s + j) y 0)%R -> msc N s K x z f = msc N s K y z f.
Proof.
  intros H. unfold msc. rewrite (power_same N s K x y f H). f_equal. unfold cospec, quadspec.
  f_equal; f_equal; apply Rsum_same; intros k Hk; destruct (four_same N s x y f k) as [-> ->]; try reflexivity; intros j Hj; apply H; assumption.
Qed.
Lemma covered i K s N : (0 < s)%nat -> (s <= N)%nat -> (0 < K)%nat -> (i < (K - 1) * s + N)%nat -> exists k j, (k < K)%nat /\ (j < N)%nat /\ (k * s + j = i)%nat.
Proof.
  intros Hs HN HK Hi. pose proof (Nat.div_mod i s ltac:(lia)) as D. pose proof (Nat.mod_upper_bound i s ltac:(lia)) as B.
  destruct (le_lt_dec (i / s) (K - 1)) as [L|L].
  - exists (i / s)%nat, (i mod s)%nat. split; [lia|]. split; [lia|]. lia.
  - exists (K - 1)%nat, (i - (K - 1) * s)%nat. assert ((K - 1) * s <= i)%nat by nia. split; [lia|]. split; lia.
Qed.
Lemma coherence_nan_curve x y : len y = len x -> (2 <= len x)%nat -> curve x y (fst (coherence_nan x y)) (snd (coherence_nan x y)).
Proof.
  intros L H2. set (v0 := map (fun v => match v with Some a => a | None => 0%R end) x).
  assert (L0 : len v0 = len x) by (unfold v0; apply map_length).
  destruct (C91_coherence v0 y (len x) L0 L H2) as (N & s & K & freq & coh & Sg & HK & E & Lf & Lc & V).
  assert (Es : N = nperseg (len x) /\ s = (nperseg (len x) - noverlap (len x))%nat /\ K = nsegments (len x)).
  { destruct Sg as (E1 & E2 & E3). split; [exact E1|]. subst N. split; [exact E2|].
    assert (Q : forall k, (k < K <-> k < nsegments (len x))%nat). { intros k. rewrite E3, nsegments_spec by lia. rewrite E2. reflexivity. }
    pose proof (proj1 (Q (K - 1)%nat)). pose proof (proj2 (Q (nsegments (len x) - 1)%nat)). pose proof (nsegments_pos (len x)). lia. }
  assert (HN : (2 <= N)%nat) by (destruct Sg as (-> & _); lia). assert (Hs : (0 < s <= N)%nat). { destruct Sg as (_ & -> & _). pose proof (Nat.div_lt N 2). lia. }
  assert (Bd : forall k j, (k < K)%nat -> (j < N)%nat -> (k * s + j < len x)%nat). { intros k j Hk Hj. destruct Sg as (_ & _ & E3). apply E3 in Hk. lia. }
  assert (Lu : last_used (len x) = ((K - 1) * s + N)%nat) by (unfold last_used; destruct Es as (-> & -> & ->); reflexivity).
  unfold coherence_nan. fold v0. rewrite E. cbn [fst snd]. rewrite Lu.
  exists N, s, K. split; [exact Sg|]. split; [exact HK|].
  destruct (existsb (fun v => match v with Some _ => false | None => true end) (firstn ((K - 1) * s + N) x)) eqn:Ex; cbn [fst snd].
  - split; [exact Lf|]. split; [rewrite map_length; exact Lc|]. intros f Hf. destruct (V f Hf) as (V1 & _). split; [exact V1|].
    assert (Q : nth f (map (fun _ : option R => @None R) coh) None = None).
    { change (@None R) with ((fun _ : option R => @None R) None) at 2. rewrite map_nth. reflexivity. }
    split; [intros _; exact Q|]. intros v Hv. exfalso.
    apply existsb_exists in Ex. destruct Ex as (o & Io & Eo). destruct o as [a|]; [discriminate|]. apply (In_nth _ _ (Some 0%R)) in Io. destruct Io as (i & Hi & En).
    rewrite firstn_length in Hi. rewrite nth_firstn in En by lia.
    destruct (covered i K s N) as (k & j & Hk & Hj & Eq); [lia|lia|exact HK|lia|]. specialize (Hv k j Hk Hj). rewrite Eq in Hv.
    rewrite (nth_indep _ None (Some 0%R)) in Hv by lia. rewrite Hv in En. discriminate.
  - assert (Kn : forall k j, (k < K)%nat -> (j < N)%nat -> nth (k * s + j) x None <> None).
    { intros k j Hk Hj Z. pose proof (Bd k j Hk Hj) as B. assert (In None (firstn ((K - 1) * s + N) x)) as I.
      { rewrite <- Z. rewrite <- (nth_firstn _ x ((K - 1) * s + N) (k * s + j) None) by nia. apply nth_In. rewrite firstn_length. nia. }
      assert (Q : existsb (fun v : option R => match v with Some _ => false | None => true end) (firstn ((K - 1) * s + N) x) = true) by (apply existsb_exists; exists None; split; [exact I|reflexivity]).
      rewrite Ex in Q. discriminate. }
    split; [exact Lf|]. split; [exact Lc|]. intros f Hf. destruct (V f Hf) as (V1 & V2 & V3). split; [exact V1|]. split.
    + intros (k & j & Hk & Hj & Z). exfalso. exact (Kn k j Hk Hj Z).
    + intros v Hv. assert (Sm : forall k j, (k < K)%nat -> (j < N)%nat -> nth (k * s + j) v0 0%R = nth (k * s + j) v 0%R).
      { intros k j Hk Hj. specialize (Hv k j Hk Hj). pose proof (Bd k j Hk Hj) as B. unfold v0.
        set (h := fun w : option R => match w with Some a => a | None => 0%R end). change (nth (k * s + j) (map h x) (h None) = nth (k * s + j) v 0%R). rewrite map_nth. rewrite Hv. reflexivity. }
      rewrite (power_same N s K v0 v f Sm) in V2, V3. rewrite (msc_same N s K v0 v y f Sm) in V3. split; assumption.
Qed.

(** ** Tables *)
Lemma rearranged_column idx T T' n c v : table T n -> rearranged idx T T' -> has_column T c v ->
  table T' (len idx) /\ has_column T' c (map (fun i => nth i v NaN) idx) /\ get_column T' c = Ok (map (fun i => nth i v NaN) idx).
Proof.
  intros (Nd & Ne & F) Rr H.
  assert (Nm : map fst T' = map fst T). { clear - Rr. induction Rr as [|a b T T' (Ha & _) _ IH]; [reflexivity|]. cbn [map]. rewrite Ha, IH. reflexivity. }
  assert (Tb : table T' (len idx)).
  { split; [rewrite Nm; exact Nd|]. split; [destruct T, T'; try contradiction; discriminate|].
    clear - Rr. induction Rr as [|a b T T' (_ & Ha) _ IH]; constructor; [exact (F2_len _ _ _ _ _ Ha)|exact IH]. }
  assert (Hc : has_column T' c (map (fun i => nth i v NaN) idx)).
  { clear - Rr H. unfold has_column in *. induction Rr as [|a b T T' (Ha & Hb) _ IH]; [destruct H|]. destruct H as [->|H]; [|right; apply IH; exact H].
    left. destruct b as [c' w]. cbn [fst snd] in *. subst c'. f_equal. clear - Hb. induction Hb as [|i x idx w Hx _ IH]; [reflexivity|]. cbn [map]. f_equal; [|exact IH].
    symmetry. apply nth_error_nth. exact Hx. }
  split; [exact Tb|]. split; [exact Hc|]. apply get_column_ok; [exact (proj1 Tb)|exact Hc].
Qed.
Lemma reading_numbers l : mapM reading (map number l) = Ok (map real l).
Proof. induction l as [|a l IH]; [reflexivity|]. cbn [map mapM]. destruct a as [q|]; cbn [number reading bind real]; rewrite IH; reflexivity. Qed.
Lemma reading_seconds l : mapM reading (map Num l) = Ok (map (fun q => Some (Q2R q)) l).
Proof. induction l as [|a l IH]; [reflexivity|]. cbn [map mapM reading bind]. rewrite IH. reflexivity. Qed.
Lemma stacked_lengths fs T : Forall (fun f => exists n, table f n) fs -> stacked fs T -> exists n, Forall (fun c : str * list cell => len (snd c) = n) T.
Proof.
  intros F [_ SC]. assert (Q : exists ns, Forall2 (fun f n => table f n) fs ns).
  { clear - F. induction F as [|f fs [n Hn] _ [ns IH]]; [exists []; constructor|exists (n :: ns); constructor; assumption]. }
  destruct Q as [ns Q]. exists (fold_right Nat.add 0%nat ns). apply Forall_forall. intros [c v] H. cbn [snd]. destruct (SC c v H) as (parts & -> & FP). clear - Q FP.
  revert ns Q. induction FP as [|f part fs parts Hp _ IH]; intros ns Q; inversion Q as [|f' n fs' ns' Hn Q']; subst; [reflexivity|]. cbn [concat fold_right]. rewrite app_length, (IH _ Q').
  f_equal. destruct Hp as [Hp|(_ & m & Hm & ->)].
  - destruct Hn as (_ & _ & Hn). rewrite Forall_forall in Hn. exact (Hn _ Hp).
  - rewrite repeat_length. destruct Hn as (_ & Hne & Hn), Hm as (_ & _ & Hm). destruct f as [|x f]; [contradiction|]. inversion Hn; inversion Hm; congruence.
Qed.
Lemma with_column_table c v f g n : NoDup (map fst f) -> Forall (fun c => len (snd c) = n) f -> len v = n -> with_column c v f g -> table g n.
Proof.
  intros Nd F L W. revert Nd F. destruct W as [h Hn|a w b Hn]; intros Nd F.
  - split; [rewrite map_app; cbn [map fst]; apply NoDup_snoc; assumption|]. split; [destruct h; discriminate|]. apply Forall_app. split; [exact F|]. constructor; [exact L|constructor].
  - split; [rewrite map_app in *; exact Nd|]. split; [destruct a; discriminate|]. apply Forall_app in F. destruct F as [Fa Fb]. apply Forall_app. split; [exact Fa|]. inversion Fb as [|? ? Q1 Q2]. constructor; [exact L|exact Q2].
Qed.
Lemma selected_columns (P : str * list cell -> Prop) f g : selected P f g -> (forall c, In c g -> In c f) /\ (NoDup (map fst f) -> NoDup (map fst g)).
Proof.
  induction 1 as [|x l m Hx _ [I1 I2]|x l m Hx _ [I1 I2]].
  - split; [intros c H; exact H|intros _; constructor].
  - split; [intros c [->|H]; [left; reflexivity|right; apply I1; exact H]|]. cbn [map]. intros Nd. inversion Nd as [|? ? N1 N2]; subst. constructor; [|apply I2; exact N2].
    intros H. apply N1. apply in_map_iff in H. destruct H as (y & <- & Hy). apply in_map. apply I1. exact Hy.
  - split; [intros c H; right; apply I1; exact H|]. cbn [map]. intros Nd. inversion Nd; subst. apply I2. assumption.
Qed.
Lemma mru_table (I : Type) td (specs : feed_specs I) fsys paths T : good_template specs feed -> converter td -> mru_result td specs fsys paths T ->
  exists ts, table T (len ts) /\ has_column T (lit "tsec") (map Num ts).
Proof.
  intros Hg Hc [sorted frames whole before ts timed rest T' P S FT St HB Etd W1 Sel W2].
  assert (Ft : Forall (fun f => exists n, table f n) frames). { clear - FT Hg. induction FT as [|p f l fs H _ IH]; constructor; [exact (proj1 (file_table_table _ _ _ _ _ Hg H))|exact IH]. }
  destruct (stacked_lengths frames whole Ft St) as [n Hn]. pose proof (distinct_NoDup _ _ (proj1 St)) as Nw.
  assert (Lt : len ts = n).
  { destruct (Hc _ _ Etd) as [L _]. rewrite map_length in L. rewrite L. rewrite Forall_forall in Hn. exact (Hn _ HB). }
  assert (T1 : table timed n) by (eapply with_column_table; [exact Nw|exact Hn| |exact W1]; rewrite map_length; exact Lt).
  destruct T1 as (N1 & _ & L1). destruct (selected_columns _ _ _ Sel) as [Si Sn].
  exists ts. split.
  - rewrite Lt. eapply with_column_table; [apply Sn; exact N1| | |exact W2]; [|rewrite map_length; exact Lt].
    rewrite Forall_forall in *. intros c H. apply L1. apply Si. exact H.
  - unfold has_column. destruct W2; apply in_or_app; right; left; reflexivity.
Qed.

(** ** The script *)
Lemma seconds_of us idx times : Forall2 utc_of (map (fun i => nth i us 0) idx)%Z times -> mapM timestamp times = Ok (map (fun i => IZR (nth i us 0%Z) / 1000000)%R idx).
Proof.
  revert times. induction idx as [|i idx IH]; intros times F; inversion F as [|c d cs ds Hc F' E1 E2]; subst; [reflexivity|].
  apply utc_of_time in Hc. apply utc_time_us in Hc. destruct Hc as [Hc Hc']. cbn [mapM map]. unfold timestamp at 1. rewrite Hc, Hc'. cbn [bind]. rewrite (IH ds F'). reflexivity.
Qed.
Lemma cell_times_ok ts us idx : Forall2 (fun t i => t == i # 1000000)%Q ts us -> Forall in_calendar us -> Forall (fun i => (i < len us)%nat) idx ->
  exists times, mapM cell_time (map (fun i => nth i (map Time ts) NaN) idx) = Ok times /\ Forall2 utc_of (map (fun i => nth i us 0)%Z idx) times.
Proof.
  intros Ht HC. pose proof (F2_len _ _ _ _ _ Ht) as L. induction 1 as [|i idx Hi _ (times & IH1 & IH2)]; [exists []; split; [reflexivity|constructor]|].
  destruct (cell_time_ok (nth i ts 0%Q) (nth i us 0%Z)) as (d & Ed & Ud).
  - apply (Forall2_nth_total _ _ (fun t i => t == i # 1000000)%Q); [exact Ht|lia].
  - rewrite Forall_forall in HC. apply HC. apply nth_In. exact Hi.
  - exists (d :: times). cbn [map mapM]. rewrite (nth_indep _ NaN (Time 0%Q)) by (rewrite map_length; lia). rewrite map_nth, Ed. cbn [bind]. rewrite IH1. split; [reflexivity|]. constructor; assumption.
Qed.
Lemma mapM_F2 (A B : Type) (f : A -> res B) (P : A -> B -> Prop) l : (forall a, In a l -> exists b, f a = Ok b /\ P a b) -> exists bs, mapM f l = Ok bs /\ Forall2 P l bs.
Proof.
  induction l as [|a l IH]; intros H; [exists []; split; [reflexivity|constructor]|]. destruct (H a (or_introl eq_refl)) as (b & Eb & Pb).
  destruct IH as (bs & E & F); [intros x Hx; apply H; right; exact Hx|]. exists (b :: bs). cbn [mapM]. rewrite Eb. cbn [bind]. rewrite E. split; [reflexivity|constructor; assumption].
Qed.

(** C113: the script completes with three figures of four curves each, each curve being the coherence of a monitor's records, in
    order of time, with the envelope of a motion at the times of these records. *)
Theorem C113_curves : forall (I : Type) argsort fsys td ship tk nav_paths nav_files dgs_paths T us gs bias (specs : feed_specs I) stamp pre mru_files M n,
  sorts argsort -> known_ship ship -> talker_for ship (Some (lit "GPGGA")) tk -> Forall2 (provides fsys ship tk None) nav_paths nav_files ->
  read_dgs_laptop fsys td dgs_paths ship None = Ok (Some T) -> meter_table T us gs -> (1440 < len us)%nat ->
  dictionary (formats specs) -> dictionary (descriptions specs) -> good_template specs feed -> converter td -> reads stamp td ->
  Forall (fun x => dated pre (snd x) (fst x) /\ valid_date (snd x) /\ day_file stamp fsys (snd x) (fst x)) mru_files -> NoDup (map snd mru_files) ->
  read_mru td specs fsys (map fst mru_files) = Ok M -> table M (S n) ->
  (forall m, In m [lit "Pitch"; lit "Roll"; lit "Heave"] -> exists vs, has_column M (m ++ lit ":g") (map number vs)) ->
  (forall c, In c [lit "vcc"; lit "ve"; lit "al"; lit "ax"] -> exists xs, has_column T c (map number xs)) ->
  exists idx ts figures, time_order us idx /\ has_column M (lit "tsec") (map Num ts) /\ Sorted Qle ts /\
    motion_script argsort fsys td ship nav_paths dgs_paths bias specs (map fst mru_files) = Ok figures /\
    Forall2 (fun m fig => fst fig = m /\ exists vs env, has_column M (m ++ lit ":g") (map number vs) /\
        envelope (map (fun i => IZR (nth i us 0%Z) / 1000000)%R idx) (map Q2R ts) (map real vs) env /\
        Forall2 (fun c cu => fst cu = c /\ exists xs, has_column T c (map number xs) /\
            curve (map (fun i => real (nth i xs None)) idx) env (fst (snd cu)) (snd (snd cu)))
          [lit "vcc"; lit "ve"; lit "al"; lit "ax"] (snd fig))
      [lit "Pitch"; lit "Roll"; lit "Heave"] figures.
Proof.
  intros I argsort fsys td ship tk nav_paths nav_files dgs_paths T us gs bias specs stamp pre mru_files M n So Hs Ht Hp Hr Mt H3 Hf Hd Hg Hc Rt Fd Nd Em Tm Hm Hx.
  destruct (C103_positions argsort fsys td ship (Some (lit "GPGGA")) tk false nav_paths nav_files dgs_paths T us gs bias 1 So Hs Ht Hp Hr Mt ltac:(lia))
    as (rows & nav & idx & T' & faa & full & _ & _ & _ & Es & O & Rr & Lf & _).
  destruct (C96_time_order I stamp td specs fsys pre mru_files M Hf Hd Hg Hc Rt Fd Nd Em) as (ts & Hts & Sts & Ots).
  destruct (proj2 (C95_missing faa) ltac:(lia)) as (ffaa & Ef & _).
  assert (Li : len idx = len us) by (destruct O as [O _]; apply Permutation_length in O; rewrite seq_length in O; exact O).
  assert (Bi : Forall (fun i => (i < len us)%nat) idx) by (apply permutation_below; exact (proj1 O)).
  destruct Mt as (Tt & (tt & Htt & Ftt) & _ & HC).
  destruct (rearranged_column idx T T' (len us) _ _ Tt Rr Htt) as (Tt' & _ & Gd).
  destruct (cell_times_ok tt us idx Ftt HC Bi) as (times & Ec & Ft). pose proof (seconds_of us idx times Ft) as Ets.
  set (tsec := map (fun i => IZR (nth i us 0%Z) / 1000000)%R idx) in *.
  assert (Lts : len ts = S n). { destruct Tm as (_ & _ & L). rewrite Forall_forall in L. specialize (L _ Hts). cbn [snd] in L. rewrite map_length in L. exact L. }
  destruct (mapM_F2 _ _ (motion_curves T' tsec M) (fun m fig => fst fig = m /\ exists vs env, has_column M (m ++ lit ":g") (map number vs) /\
        envelope tsec (map Q2R ts) (map real vs) env /\
        Forall2 (fun c cu => fst cu = c /\ exists xs, has_column T c (map number xs) /\
            curve (map (fun i => real (nth i xs None)) idx) env (fst (snd cu)) (snd (snd cu)))
          [lit "vcc"; lit "ve"; lit "al"; lit "ax"] (snd fig)) [lit "Pitch"; lit "Roll"; lit "Heave"]) as (figures & Efig & Ffig).
  { intros m Im. destruct (Hm m Im) as (vs & Hvs). assert (Lvs : len vs = S n). { destruct Tm as (_ & _ & L). rewrite Forall_forall in L. specialize (L _ Hvs). cbn [snd] in L. rewrite map_length in L. exact L. }
    unfold motion_curves. rewrite (get_column_ok _ _ _ (proj1 Tm) Hts). cbn [bind]. rewrite reading_seconds. cbn [bind]. rewrite (get_column_ok _ _ _ (proj1 Tm) Hvs). cbn [bind]. rewrite reading_numbers. cbn [bind].
    rewrite map_map. match goal with |- context [mru_interp _ ?l _] => change l with (map Q2R ts) end.
    destruct (C90_envelope tsec (map Q2R ts) (map real vs)) as (env & Ee & Le & Ve); [rewrite !map_length; lia|destruct ts; [discriminate|discriminate]|exact Ots|].
    rewrite Ee. cbn [bind].
    destruct (mapM_F2 _ _ (monitor_curve T' env) (fun c cu => fst cu = c /\ exists xs, has_column T c (map number xs) /\
            curve (map (fun i => real (nth i xs None)) idx) env (fst (snd cu)) (snd (snd cu))) monitors) as (curves & Ecu & Fcu).
    { intros c Ic. destruct (Hx c Ic) as (xs & Hxs). unfold monitor_curve. destruct (rearranged_column idx T T' (len us) _ _ Tt Rr Hxs) as (_ & _ & Gc). rewrite Gc. cbn [bind].
      assert (Lx : len xs = len us). { destruct Tt as (_ & _ & L). rewrite Forall_forall in L. specialize (L _ Hxs). cbn [snd] in L. rewrite map_length in L. exact L. }
      replace (map (fun i => nth i (map number xs) NaN) idx) with (map number (map (fun i => nth i xs None) idx)).
      - rewrite reading_numbers. cbn [bind]. rewrite map_map. eexists. split; [reflexivity|]. cbn [fst snd]. split; [reflexivity|]. exists xs. split; [exact Hxs|].
        apply coherence_nan_curve; rewrite map_length; [|lia]. rewrite Le. unfold tsec. apply map_length.
      - rewrite map_map. apply map_ext. intros i. symmetry. exact (map_nth number xs None i). }
    rewrite Ecu. cbn [bind]. eexists. split; [reflexivity|]. cbn [fst snd]. split; [reflexivity|]. exists vs, env. split; [exact Hvs|]. split; [split; [exact Le|exact Ve]|]. exact Fcu. }
  exists idx, ts, figures. split; [exact O|]. split; [exact Hts|]. split; [exact Sts|]. split; [|exact Ffig].
  unfold motion_script. rewrite Es. cbn [bind]. rewrite Ef. cbn [bind]. rewrite Em. cbn [bind]. rewrite Gd. cbn [bind]. rewrite Ec. cbn [bind]. rewrite Ets. cbn [bind]. exact Efig.
Qed.
Print Assumptions C113_curves.

(** ** Order of the files *)
Lemma lex_antisym a b : lex_le a b -> lex_le b a -> a = b.
Proof.
  intros H. induction H as [b|x y a b Hxy|x a b _ IH]; intros H'; [inversion H'; reflexivity| |].
  - inversion H'; subst; lia.
  - inversion H' as [|x' y' a' b' Hl|x' a' b' Hs]; subst; [lia|]. f_equal. apply IH. exact Hs.
Qed.
Lemma lex_trans a b c : lex_le a b -> lex_le b c -> lex_le a c.
Proof.
  intros H. revert c. induction H as [b|x y a b Hxy|x a b _ IH]; intros c H'; [constructor| |].
  - inversion H' as [|x' y' a' b' Hl|x' a' b' Hs]; subst; apply lex_less; lia.
  - inversion H' as [|x' y' a' b' Hl|x' a' b' Hs]; subst; [apply lex_less; exact Hl|apply lex_same; apply IH; exact Hs].
Qed.
Lemma lex_sorted_unique l1 : forall l2, StronglySorted lex_le l1 -> StronglySorted lex_le l2 -> Permutation l1 l2 -> l1 = l2.
Proof.
  induction l1 as [|a l1 IH]; intros l2 S1 S2 P; [apply Permutation_nil in P; symmetry; exact P|].
  destruct l2 as [|b l2]; [apply Permutation_sym, Permutation_nil in P; discriminate|].
  inversion S1 as [|? ? S1' F1]; inversion S2 as [|? ? S2' F2]; subst. rewrite Forall_forall in F1, F2.
  assert (lex_refl : forall s, lex_le s s) by (intros s; induction s as [|x s IHs]; [constructor|apply lex_same; exact IHs]).
  assert (E : a = b).
  { apply lex_antisym.
    - assert (Q : In b (a :: l1)) by (apply (Permutation_in _ (Permutation_sym P)); left; reflexivity). destruct Q as [->|Q]; [apply lex_refl|exact (F1 _ Q)].
    - assert (Q : In a (b :: l2)) by (apply (Permutation_in _ P); left; reflexivity). destruct Q as [->|Q]; [apply lex_refl|exact (F2 _ Q)]. }
  subst b. f_equal. apply IH; [exact S1'|exact S2'|]. eapply Permutation_cons_inv. exact P.
Qed.
Lemma np_sort_permuted l l' : Permutation l l' -> np_sort l' = np_sort l.
Proof.
  intros P. destruct (np_sort_spec l) as [P1 S1], (np_sort_spec l') as [P2 S2].
  apply lex_sorted_unique; [apply Sorted_StronglySorted; [intros a b c; apply lex_trans|exact S2]|apply Sorted_StronglySorted; [intros a b c; apply lex_trans|exact S1]|].
  rewrite P2, P1. symmetry. exact P.
Qed.
(** C113: the order in which the gravimeter's and the motion sensor's files are listed does not matter, nor does the sorting method, if no
    two records of the gravimeter have the same time. *)
Theorem C113_file_order : forall (I : Type) argsort argsort' fsys td ship nav_paths dgs_paths dgs_paths' T ts bias (specs : feed_specs I) mru_paths mru_paths',
  sorts argsort -> sorts argsort' -> keeps_length td -> Permutation dgs_paths dgs_paths' -> Permutation mru_paths mru_paths' ->
  read_dgs_laptop fsys td dgs_paths ship None = Ok (Some T) -> has_column T (lit "date_time") (map Time ts) -> distinct_times ts ->
  motion_script argsort' fsys td ship nav_paths dgs_paths' bias specs mru_paths' = motion_script argsort fsys td ship nav_paths dgs_paths bias specs mru_paths.
Proof.
  intros I argsort argsort' fsys td ship nav_paths dgs_paths dgs_paths' T ts bias specs mru_paths mru_paths' S S' K P P' E Hc D.
  unfold motion_script. rewrite (C103_file_order argsort argsort' fsys td ship (Some (lit "GPGGA")) false nav_paths dgs_paths dgs_paths' T ts bias 1 S S' K P E Hc D).
  unfold read_mru. rewrite (np_sort_permuted _ _ P'). reflexivity.
Qed.
Print Assumptions C113_file_order.

(** ** What does not matter *)
Lemma script_data argsort fsys td ship talker clean nav_paths dgs_paths bias samp data faa full :
  dgs_script argsort fsys td ship talker clean nav_paths dgs_paths bias samp = Ok (data, faa, full) ->
  exists times g, script_meter argsort (read_dgs_laptop fsys td dgs_paths ship None) = Ok (data, times, g).
Proof.
  unfold dgs_script. destruct (script_nav fsys ship talker clean nav_paths) as [nav|e]; [|discriminate]. cbn [bind].
  destruct (script_meter argsort (read_dgs_laptop fsys td dgs_paths ship None)) as [[[d times] g]|e]; [|discriminate]. cbn [bind]. unfold script_anomaly.
  destruct (faa_script_nan nav g times bias samp) as [r|e]; [|discriminate]. cbn [bind]. intros H. exists times, g. congruence.
Qed.
(** C113: positions and gravity have no part in the curves: other navigation files, or another bias, give the same ones if they give any. *)
Theorem C113_positions : forall (I : Type) argsort fsys td ship nav_paths nav_paths' dgs_paths bias bias' (specs : feed_specs I) mru_paths figures figures',
  motion_script argsort fsys td ship nav_paths dgs_paths bias specs mru_paths = Ok figures ->
  motion_script argsort fsys td ship nav_paths' dgs_paths bias' specs mru_paths = Ok figures' -> figures' = figures.
Proof.
  intros I argsort fsys td ship nav_paths nav_paths' dgs_paths bias bias' specs mru_paths figures figures'. unfold motion_script.
  destruct (dgs_script argsort fsys td ship (Some (lit "GPGGA")) false nav_paths dgs_paths bias 1) as [[[d1 f1] u1]|e] eqn:E1; [|discriminate].
  destruct (dgs_script argsort fsys td ship (Some (lit "GPGGA")) false nav_paths' dgs_paths bias' 1) as [[[d2 f2] u2]|e] eqn:E2; [|discriminate].
  apply script_data in E1. apply script_data in E2. destruct E1 as (t1 & g1 & E1), E2 as (t2 & g2 & E2). rewrite E1 in E2. assert (d2 = d1) as -> by congruence.
  cbn [bind]. destruct (script_filter_nan f1) as [x1|e]; [|discriminate]. destruct (script_filter_nan f2) as [x2|e]; [|discriminate]. cbn [bind]. intros H1 H2. rewrite H1 in H2. congruence.
Qed.
Print Assumptions C113_positions.

(** ** Failures *)
Lemma interp_length tsec mt v m : mru_interp tsec mt v = Ok m -> len m = len tsec.
Proof. unfold mru_interp. destruct (len mt =? 0)%nat; [discriminate|]. destruct (negb _); [discriminate|]. intros H. injection H as <-. apply map_length. Qed.
(** C113: when the script stops: as the scripts of C103; with fewer than 1441 records of the gravimeter; as C96 says; and if a motion has no
    column, or no records. *)
Theorem C113_failures : forall (I : Type) argsort fsys td ship nav_paths dgs_paths bias (specs : feed_specs I) mru_paths,
  let script := motion_script argsort fsys td ship nav_paths dgs_paths bias specs mru_paths in
  let anomaly := dgs_script argsort fsys td ship (Some (lit "GPGGA")) false nav_paths dgs_paths bias 1 in
  (forall e, anomaly = Raise e -> script = Raise e) /\
  forall data faa full, anomaly = Ok (data, faa, full) ->
    ((len faa <= 1440)%nat -> script = Raise ValueError) /\
    ((1440 < len faa)%nat ->
      (forall e, read_mru td specs fsys mru_paths = Raise e -> script = Raise e) /\
      forall M ts us idx, read_mru td specs fsys mru_paths = Ok M -> NoDup (map fst M) -> has_column M (lit "tsec") (map Num ts) ->
        NoDup (map fst data) -> has_column data (lit "date_time") (map (fun i => Time (nth i us 0%Z # 1000000)) idx) -> Forall in_calendar (map (fun i => nth i us 0%Z) idx) ->
        (~ In (lit "Pitch:g") (map fst M) -> script = Raise KeyError) /\
        (ts = [] -> has_column M (lit "Pitch:g") [] -> script = Raise ValueError) /\
        (forall vs, ts <> [] -> len vs = len ts -> has_column M (lit "Pitch:g") (map number vs) -> ~ In (lit "vcc") (map fst data) -> script = Raise KeyError)).
Proof.
  intros I argsort fsys td ship nav_paths dgs_paths bias specs mru_paths script anomaly. unfold script, anomaly. clear script anomaly. unfold motion_script. split.
  - intros e ->. reflexivity.
  - intros data faa full ->. cbn [bind]. destruct (C95_missing faa) as [Cs Cl]. split.
    + intros H. rewrite (Cs H). reflexivity.
    + intros H. destruct (Cl H) as (ffaa & -> & _). cbn [bind]. split; [intros e ->; reflexivity|].
      intros M ts us idx -> Nm Hts Nd Hdt HC. cbn [bind]. rewrite (get_column_ok _ _ _ Nd Hdt). cbn [bind].
      assert (Q : exists times, mapM cell_time (map (fun i => Time (nth i us 0%Z # 1000000)) idx) = Ok times /\ Forall2 utc_of (map (fun i => nth i us 0%Z) idx) times).
      { clear - HC. induction idx as [|i idx IH]; [exists []; split; [reflexivity|constructor]|]. cbn [map] in HC. inversion HC as [|? ? H1 H2]; subst.
        destruct (IH H2) as (times & E1 & E2). destruct (cell_time_ok (nth i us 0%Z # 1000000) (nth i us 0%Z)) as (d & Ed & Ud); [reflexivity|exact H1|].
        exists (d :: times). cbn [map mapM]. rewrite Ed. cbn [bind]. rewrite E1. split; [reflexivity|constructor; assumption]. }
      destruct Q as (times & Ec & Ft). rewrite Ec. cbn [bind]. rewrite (seconds_of us idx times Ft). cbn [bind]. set (tsec := map _ idx). cbn [motions mapM].
      assert (G : get_column M (lit "tsec") = Ok (map Num ts)) by (apply get_column_ok; assumption).
      assert (NC : forall f c, ~ In c (map fst f) -> get_column f c = Raise KeyError).
      { intros f c Hn. unfold get_column. destruct (column f c) as [v|] eqn:E; [|reflexivity]. exfalso. apply Hn. apply column_some in E. unfold has_column in E. apply (in_map fst) in E. exact E. }
      unfold motion_curves at 1 4 7. rewrite G. cbn [bind]. rewrite reading_seconds. cbn [bind]. change (lit "Pitch" ++ lit ":g") with (lit "Pitch:g"). split; [|split].
      * intros Hn. rewrite (NC _ _ Hn). reflexivity.
      * intros -> Hv. rewrite (get_column_ok _ _ _ Nm Hv). reflexivity.
      * intros vs Hne Lv Hv Hn. rewrite (get_column_ok _ _ _ Nm Hv). cbn [bind]. rewrite reading_numbers. cbn [bind]. rewrite map_map.
        match goal with |- context [mru_interp _ ?l ?v] => destruct (mru_interp tsec l v) as [m|e] eqn:Ei end.
        -- cbn [bind monitors mapM]. unfold monitor_curve at 1. rewrite (NC _ _ Hn). reflexivity.
        -- exfalso. unfold mru_interp in Ei. rewrite map_length in Ei. destruct ts as [|t ts]; [contradiction|]. cbn [len Nat.eqb] in Ei.
           unfold rolling_max in Ei. rewrite !map_length, seq_length, Lv in Ei. cbn [len] in Ei. rewrite Nat.eqb_refl in Ei. discriminate.
Qed.
Print Assumptions C113_failures.
