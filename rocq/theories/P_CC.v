(** Properties C34-C37: cross-coupling coefficients. *)
From Coq Require Import List Reals Arith Lia Lra Sorted.
From Verif Require Import M_Py M_Np M_Nav M_CC S_Base S_Nav S_CC L_Base L_Np L_Nav L_CC.
Import ListNotations.
Open Scope R_scope.

(** C34 and C36: there are fixed filter weights such that for all inputs the table's rows are the
    low-passed second derivatives over an ordered list of disjoint ranges, the same for the six
    series; the ranges have at least 1000 samples and no gap inside. *)
Theorem C36_rows : exists h d, low_pass h /\ differentiates d /\
  forall faa vcc ve al ax lev times sr n df,
  length faa = n -> length vcc = n -> length ve = n -> length al = n -> length ax = n -> length lev = n ->
  (forall ts, times = Some ts -> length ts = n) ->
  cc_table faa vcc ve al ax lev times sr = Ok df ->
  exists bounds, bounds <> [] /\ ForallOrdPairs (fun p q : nat * nat => (snd p < fst q)%nat) bounds /\
    (forall a b, In (a, b) bounds <->
       code_range n (fun i => match times with Some ts => gap ts sr i | None => False end) a b) /\
    d_ve df = curvature_rows h d bounds ve /\ d_vcc df = curvature_rows h d bounds vcc /\
    d_al df = curvature_rows h d bounds al /\ d_ax df = curvature_rows h d bounds ax /\
    d_lev df = curvature_rows h d bounds lev /\ d_g df = map Ropp (curvature_rows h d bounds faa).
Proof.
  exists lp, dw. split; [exact lp_low_pass|]. split; [exact dw_differentiates|].
  intros faa vcc ve al ax lev times sr n df. intros. eapply cc_table_rows; eassumption.
Qed.
Print Assumptions C36_rows.

(** A row never reaches outside its range: it is built from the 220 samples i .. i+219. *)
Theorem C36_row_is_local : forall h d x y i,
  (forall k, (i <= k <= i + 219)%nat -> nth k x 0 = nth k y 0) -> curvature h d x i = curvature h d y i.
Proof. intros h d x y i H. apply (cf_ext h d (fun k => nth k x 0) (fun k => nth k y 0)). exact H. Qed.
Print Assumptions C36_row_is_local.

Lemma ok_inj (A : Type) (x y : A) : Ok x = Ok y -> x = y.
Proof. congruence. Qed.

(** Number of rows. *)
Theorem C36_row_count : forall faa vcc ve al ax lev sr n df,
  length faa = n -> length vcc = n -> length ve = n -> length al = n -> length ax = n -> length lev = n ->
  cc_table faa vcc ve al ax lev None sr = Ok df ->
  (1000 <= n)%nat /\ length (d_g df) = (n - 420)%nat /\ length (d_ve df) = (n - 420)%nat /\ length (d_vcc df) = (n - 420)%nat /\
  length (d_al df) = (n - 420)%nat /\ length (d_ax df) = (n - 420)%nat /\ length (d_lev df) = (n - 420)%nat.
Proof.
  intros faa vcc ve al ax lev sr n df H0 H1 H2 H3 H4 H5.
  unfold cc_table, end_inds, used_bounds, seg_bounds. rewrite H0. cbn [map combine filter fst snd].
  rewrite Nat.min_id, Nat.sub_0_r. destruct (Nat.ltb_spec n 1000) as [|Hn]; [discriminate|]. cbn [negb].
  intros E. apply ok_inj in E. subst df. cbn [d_g d_ve d_vcc d_al d_ax d_lev].
  assert (G : forall x, length x = n -> length (cc_series [(0, n)%nat] x) = (n - 420)%nat).
  { intros x Hx. unfold cc_series. cbn [map concat fst snd]. rewrite app_nil_r.
    assert (Hl : length (slice x 0 n) = n) by (rewrite slice_length; lia).
    rewrite cc_process_length by lia. lia. }
  rewrite map_length, !G by assumption. repeat split; auto.
Qed.
Print Assumptions C36_row_count.

(** The curvature weights give the exact second derivative of a quadratic and annihilate lines, so
    constant and drifting offsets disappear. *)
Theorem C36_quadratics : forall h d x s0 s1 s2 i, low_pass h -> differentiates d ->
  (forall k, (i <= k <= i + 219)%nat -> nth k x 0 = s0 + s1 * INR k + s2 * INR k ^ 2) ->
  curvature h d x i = 2 * s2.
Proof.
  intros h d x s0 s1 s2 i [Hh _] Hd H.
  change (curvature h d x i) with (cf h d (fun k => nth k x 0) i).
  rewrite (cf_ext h d _ (fun k => s0 + s1 * INR k + s2 * INR k ^ 2) i H). apply cf_quadratic; assumption.
Qed.
Print Assumptions C36_quadratics.

(** The weights are determined by their specification. *)
Theorem C36_differentiator_unique : forall d d', differentiates d -> differentiates d' ->
  forall u, (u < 11)%nat -> d u = d' u.
Proof.
  intros d d' H H'.
  assert (G : forall p, (p <= 10)%nat -> Rsum 11 (fun u => (d u - d' u) * (INR u - 5) ^ p) = 0).
  { intros p Hp. rewrite (Rsum_ext 11 _ (fun u => d u * (INR u - 5) ^ p - d' u * (INR u - 5) ^ p)) by (intros; ring).
    rewrite Rsum_minus, H, H' by exact Hp. ring. }
  set (e := fun u => d u - d' u).
  assert (E : forall u, (u < 11)%nat -> e u = 0).
  { pose proof (G 0%nat ltac:(lia)) as G0. pose proof (G 1%nat ltac:(lia)) as G1. pose proof (G 2%nat ltac:(lia)) as G2.
    pose proof (G 3%nat ltac:(lia)) as G3. pose proof (G 4%nat ltac:(lia)) as G4. pose proof (G 5%nat ltac:(lia)) as G5.
    pose proof (G 6%nat ltac:(lia)) as G6. pose proof (G 7%nat ltac:(lia)) as G7. pose proof (G 8%nat ltac:(lia)) as G8.
    pose proof (G 9%nat ltac:(lia)) as G9. pose proof (G 10%nat ltac:(lia)) as G10. clear G.
    cbn [Rsum INR] in *.
    change (d 0%nat - d' 0%nat) with (e 0%nat) in *. change (d 1%nat - d' 1%nat) with (e 1%nat) in *.
    change (d 2%nat - d' 2%nat) with (e 2%nat) in *. change (d 3%nat - d' 3%nat) with (e 3%nat) in *.
    change (d 4%nat - d' 4%nat) with (e 4%nat) in *. change (d 5%nat - d' 5%nat) with (e 5%nat) in *.
    change (d 6%nat - d' 6%nat) with (e 6%nat) in *. change (d 7%nat - d' 7%nat) with (e 7%nat) in *.
    change (d 8%nat - d' 8%nat) with (e 8%nat) in *. change (d 9%nat - d' 9%nat) with (e 9%nat) in *.
    change (d 10%nat - d' 10%nat) with (e 10%nat) in *.
    intros u Hu. do 11 (destruct u as [|u]; [lra|]). lia. }
  intros u Hu. specialize (E u Hu). unfold e in E. lra.
Qed.
Print Assumptions C36_differentiator_unique.

Example C36_case : forall h d, low_pass h -> differentiates d ->
  curvature h d (map (fun k => INR k ^ 2) (seq 0 1000)) 7 = 2.
Proof.
  intros h d Hh Hd. rewrite (C36_quadratics h d _ 0 0 1 7 Hh Hd); [ring|].
  intros k Hk. rewrite nth_map_seq by lia. ring.
Qed.

(** C34, for each series on its own: ranges with the stated properties. *)
Theorem C34_segments : forall faa vcc ve al ax lev ts sr n df,
  length faa = n -> length vcc = n -> length ve = n -> length al = n -> length ax = n -> length lev = n -> length ts = n ->
  cc_table faa vcc ve al ax lev (Some ts) sr = Ok df ->
  exists h d bounds, low_pass h /\ differentiates d /\ bounds <> [] /\
    (forall a b, In (a, b) bounds -> (a + 1000 <= b <= n)%nat /\
       forall i, (a <= i)%nat -> (i + 1 < b)%nat -> nth (i + 1) ts 0 - nth i ts 0 <= 5 * sr) /\
    ForallOrdPairs (fun p q : nat * nat => (snd p < fst q)%nat) bounds /\
    d_ve df = curvature_rows h d bounds ve /\ d_vcc df = curvature_rows h d bounds vcc /\
    d_al df = curvature_rows h d bounds al /\ d_ax df = curvature_rows h d bounds ax /\
    d_lev df = curvature_rows h d bounds lev /\ d_g df = map Ropp (curvature_rows h d bounds faa).
Proof.
  intros faa vcc ve al ax lev ts sr n df H0 H1 H2 H3 H4 H5 H6 H.
  destruct C36_rows as [h [d [Hh [Hd HC]]]].
  destruct (HC faa vcc ve al ax lev (Some ts) sr n df) as [bounds [B1 [B2 [B3 B4]]]]; auto; [congruence|].
  exists h, d, bounds. split; [exact Hh|]. split; [exact Hd|]. split; [exact B1|]. split; [|split; [exact B2|exact B4]].
  intros a b Hab. apply B3 in Hab. destruct Hab as [R1 [_ [_ R4]]]. split; [exact R1|].
  intros i Hi1 Hi2. specialize (R4 i ltac:(lia)). unfold gap in R4.
  destruct (Rle_dec (nth (i + 1) ts 0 - nth i ts 0) (5 * sr)) as [L|L]; [exact L|]. exfalso. apply R4.
  replace (S i) with (i + 1)%nat by lia. split; [lia|lra].
Qed.
Print Assumptions C34_segments.

(** Failure: no run of 1000 samples. *)
Theorem C34_no_long_run : forall faa vcc ve al ax lev times sr n,
  length faa = n -> (forall ts, times = Some ts -> length ts = n) ->
  (forall a b, ~ code_range n (fun i => match times with Some ts => gap ts sr i | None => False end) a b) ->
  cc_table faa vcc ve al ax lev times sr = Raise ValueError.
Proof.
  intros faa vcc ve al ax lev times sr n Hf Hn H. unfold cc_table. rewrite Hf.
  pose proof (used_bounds_spec n times sr Hn) as Hs.
  destruct (used_bounds n (end_inds n times sr)) as [|[a b] l] eqn:E; [reflexivity|].
  exfalso. apply (H a b). apply Hs. left. reflexivity.
Qed.
Print Assumptions C34_no_long_run.

Example C34_case : cc_table [1; 2] [1; 2] [1; 2] [1; 2] [1; 2] [1; 2] None 1 = Raise ValueError.
Proof. reflexivity. Qed.

(** C35: with any gap at all, the samples from the last one before the last gap on are never used. *)
Lemma cc_series_firstn ub x y e : firstn e x = firstn e y -> Forall (fun ab => (snd ab <= e)%nat) ub -> cc_series ub x = cc_series ub y.
Proof.
  intros E F. unfold cc_series. f_equal. apply map_ext_in. intros [a b] I. rewrite Forall_forall in F. specialize (F _ I). cbn [fst snd] in *. f_equal.
  assert (S : forall l : list R, slice l a b = slice (firstn e l) a b) by (intros l; unfold slice; rewrite skipn_firstn_comm, firstn_firstn; f_equal; lia).
  rewrite (S x), (S y), E. reflexivity.
Qed.
Theorem C35_nothing_after_last_gap : forall faa vcc ve al ax lev faa' vcc' ve' al' ax' lev' ts sr n e,
  length ts = n -> length faa = n -> length faa' = n -> gap ts sr e -> (forall i, gap ts sr i -> (i <= e)%nat) ->
  firstn e faa = firstn e faa' -> firstn e vcc = firstn e vcc' -> firstn e ve = firstn e ve' ->
  firstn e al = firstn e al' -> firstn e ax = firstn e ax' -> firstn e lev = firstn e lev' ->
  cc_table faa vcc ve al ax lev (Some ts) sr = cc_table faa' vcc' ve' al' ax' lev' (Some ts) sr.
Proof.
  intros faa vcc ve al ax lev faa' vcc' ve' al' ax' lev' ts sr n e Hn Hf Hf' He Hm E1 E2 E3 E4 E5 E6. unfold cc_table. rewrite Hf, Hf'.
  assert (Ht : forall ts', Some ts = Some ts' -> length ts' = n) by (intros ts' E; injection E as <-; exact Hn).
  pose proof (used_bounds_spec n (Some ts) sr Ht) as Hs. set (ub := used_bounds n (end_inds n (Some ts) sr)) in *.
  assert (F : Forall (fun ab => (snd ab <= e)%nat) ub).
  { apply Forall_forall. intros [a b] I. apply Hs in I. destruct I as (_ & _ & H3 & _). cbn [snd]. destruct H3 as [H3|[_ H3]]; [apply Hm; exact H3|exfalso; exact (H3 e He)]. }
  rewrite (cc_series_firstn ub ve ve' e E3 F), (cc_series_firstn ub vcc vcc' e E2 F), (cc_series_firstn ub al al' e E4 F),
    (cc_series_firstn ub ax ax' e E5 F), (cc_series_firstn ub lev lev' e E6 F), (cc_series_firstn ub faa faa' e E1 F). reflexivity.
Qed.
Print Assumptions C35_nothing_after_last_gap.

Definition gappy : list R := map (fun i => if (i <=? 1500)%nat then INR i else INR i + 100) (seq 0 3000).

Lemma gappy_gap i : gap gappy 1 i <-> i = 1500%nat.
Proof.
  assert (L : length gappy = 3000%nat) by (unfold gappy; rewrite map_length, seq_length; reflexivity).
  unfold gap. rewrite L.
  assert (N : forall j, (j < 3000)%nat -> nth j gappy 0 = if (j <=? 1500)%nat then INR j else INR j + 100).
  { intros j Hj. unfold gappy. rewrite nth_map_seq by exact Hj. reflexivity. }
  split.
  - intros [H1 H2]. rewrite !N in H2 by lia. rewrite S_INR in H2.
    destruct (Nat.leb_spec (S i) 1500), (Nat.leb_spec i 1500); try lra; lia.
  - intros ->. split; [apply Nat.ltb_lt; reflexivity|]. rewrite !N by (apply Nat.ltb_lt; reflexivity).
    replace (1501 <=? 1500)%nat with false by reflexivity. replace (1500 <=? 1500)%nat with true by reflexivity.
    rewrite S_INR. lra.
Qed.

(** 3000 samples with one interruption after sample 1500: the 1499 samples after it are free of gaps, but
    whatever the six series are there, the table is the same. *)
Theorem C35_every_long_run_used_refuted : exists ts sr n a, length ts = n /\ (a + 1400 <= n)%nat /\ (forall i, (a <= i)%nat -> ~ gap ts sr i) /\
  (exists faa vcc ve al ax lev df, length faa = n /\ cc_table faa vcc ve al ax lev (Some ts) sr = Ok df) /\
  forall faa vcc ve al ax lev faa' vcc' ve' al' ax' lev', length faa = n -> length faa' = n ->
  firstn a faa = firstn a faa' -> firstn a vcc = firstn a vcc' -> firstn a ve = firstn a ve' ->
  firstn a al = firstn a al' -> firstn a ax = firstn a ax' -> firstn a lev = firstn a lev' ->
  cc_table faa vcc ve al ax lev (Some ts) sr = cc_table faa' vcc' ve' al' ax' lev' (Some ts) sr.
Proof.
  assert (L : length gappy = 3000%nat) by (unfold gappy; rewrite map_length, seq_length; reflexivity).
  exists gappy, 1, 3000%nat, 1501%nat. split; [exact L|]. split; [apply Nat.leb_le; reflexivity|]. split.
  { intros i Hi G. apply gappy_gap in G. subst i. apply Nat.leb_le in Hi. discriminate. } split.
  - set (z := repeat 0 3000). exists z, z, z, z, z, z. assert (Lz : length z = 3000%nat) by apply repeat_length.
    assert (Ht : forall ts', Some gappy = Some ts' -> length ts' = 3000%nat) by (intros ts' E; injection E as <-; exact L).
    pose proof (used_bounds_spec 3000 (Some gappy) 1 Ht) as Hs. unfold cc_table. rewrite Lz.
    destruct (used_bounds 3000 (end_inds 3000 (Some gappy) 1)) as [|ab ub].
    + exfalso. apply (Hs 0%nat 1500%nat). split; [split; apply Nat.leb_le; reflexivity|]. split; [left; reflexivity|].
      split; [left; apply gappy_gap; reflexivity|]. intros i Hi G. apply gappy_gap in G. lia.
    + eexists. split; [reflexivity|]. reflexivity.
  - intros faa vcc ve al ax lev faa' vcc' ve' al' ax' lev' H H' E1 E2 E3 E4 E5 E6.
    assert (F : forall x y : list R, firstn 1501 x = firstn 1501 y -> firstn 1500 x = firstn 1500 y).
    { intros x y E. replace 1500%nat with (Nat.min 1500 1501) by reflexivity. rewrite <- !firstn_firstn, E. reflexivity. }
    apply (C35_nothing_after_last_gap _ _ _ _ _ _ _ _ _ _ _ _ gappy 1 3000%nat 1500%nat L H H'); try (apply F; assumption); [apply gappy_gap; reflexivity|].
    intros i G. apply gappy_gap in G. subst i. apply Nat.le_refl.
Qed.
Print Assumptions C35_every_long_run_used_refuted.

Example C35_case : gap gappy 1 1500 /\ ~ gap gappy 1 7.
Proof. split; [apply gappy_gap; reflexivity|]. rewrite gappy_gap. discriminate. Qed.

(** C37: noise-free data give back the coefficients. *)
Theorem C37_coefficients_recovered : forall faa vcc ve al ax lev times sr n df params s0 s1 s2 cve cvcc cal cax clev,
  length faa = n -> length vcc = n -> length ve = n -> length al = n -> length ax = n -> length lev = n ->
  (forall ts, times = Some ts -> length ts = n) ->
  (forall k, (k < n)%nat -> nth k faa 0 = (s0 + s1 * INR k + s2 * INR k ^ 2) -
     (cve * nth k ve 0 + cvcc * nth k vcc 0 + cal * nth k al 0 + cax * nth k ax 0 + clev * nth k lev 0)) ->
  cc_table faa vcc ve al ax lev times sr = Ok df ->
  independent (d_ve df) (d_vcc df) (d_al df) (d_ax df) (d_lev df) ->
  cc_params df params ->
  params = [-2 * s2; cve; cvcc; cal; cax; clev].
Proof.
  intros faa vcc ve al ax lev times sr n df params s0 s1 s2 cve cvcc cal cax clev L0 L1 L2 L3 L4 L5 Ht Hf Hdf Hind [X [HX [Hlen Hmin]]].
  destruct (cc_table_rows _ _ _ _ _ _ _ _ n df L0 L1 L2 L3 L4 L5 Ht Hdf) as [bounds [B1 [B2 [B3 [E1 [E2 [E3 [E4 [E5 E6]]]]]]]]].
  set (st := row_starts bounds) in *.
  rewrite !curvature_rows_starts in *. fold st in E1, E2, E3, E4, E5, E6.
  set (m := length st). assert (Lve : length (d_ve df) = m) by (rewrite E1, map_length; reflexivity).
  assert (Lg : length (d_g df) = m) by (rewrite E6, !map_length; reflexivity).
  assert (Hg : forall i, (i < m)%nat -> nth i (d_g df) 0 =
     -2 * s2 + cve * nth i (d_ve df) 0 + cvcc * nth i (d_vcc df) 0 + cal * nth i (d_al df) 0 + cax * nth i (d_ax df) 0 + clev * nth i (d_lev df) 0).
  { intros i Hi. rewrite E1, E2, E3, E4, E5, E6, map_map.
    rewrite (nth_map _ _ (fun x => - curvature lp dw faa x) st i 0 0%nat) by exact Hi.
    rewrite !(nth_map _ _ _ st i 0 0%nat) by exact Hi.
    assert (Hr : (nth i st 0 + 219 < n)%nat).
    { apply (row_starts_range n (gap_opt times sr) bounds); [intros a b Hab; apply B3; exact Hab|]. apply nth_In. exact Hi. }
    set (p := nth i st 0%nat) in *.
    assert (Ec : curvature lp dw faa p = 2 * s2 + (- cve) * curvature lp dw ve p + (- cvcc) * curvature lp dw vcc p +
        (- cal) * curvature lp dw al p + (- cax) * curvature lp dw ax p + (- clev) * curvature lp dw lev p); [|rewrite Ec; ring].
    change (cf lp dw (fun k => nth k faa 0) p = 2 * s2 + (- cve) * cf lp dw (fun k => nth k ve 0) p + (- cvcc) * cf lp dw (fun k => nth k vcc 0) p +
        (- cal) * cf lp dw (fun k => nth k al 0) p + (- cax) * cf lp dw (fun k => nth k ax 0) p + (- clev) * cf lp dw (fun k => nth k lev 0) p).
    rewrite <- !cf_scal. destruct lp_low_pass as [Hsum _].
    rewrite <- (cf_quadratic lp dw s0 s1 s2 p dw_differentiates Hsum). rewrite <- !cf_plus.
    apply cf_ext. intros k Hk. rewrite Hf by lia. ring. }
  assert (Rlen : length (cc_rows df) = m) by (unfold cc_rows; rewrite map_length, seq_length; exact Lg).
  assert (Rn : forall i, (i < m)%nat -> nth i (cc_rows df) [] =
     [nth i (d_ve df) 0; nth i (d_vcc df) 0; nth i (d_al df) 0; nth i (d_ax df) 0; nth i (d_lev df) 0]).
  { intros i Hi. unfold cc_rows. rewrite Lg. rewrite nth_map_seq by exact Hi. reflexivity. }
  assert (NC : ~ (exists c, (c < 5)%nat /\ const_col (cc_rows df) c)).
  { intros [c [Hc [v [Hv Hcol]]]].
    assert (Hcol' : forall i, (i < m)%nat -> nth c [nth i (d_ve df) 0; nth i (d_vcc df) 0; nth i (d_al df) 0; nth i (d_ax df) 0; nth i (d_lev df) 0] 0 = v).
    { intros i Hi. rewrite <- Rn by exact Hi. apply Hcol. apply nth_In. lia. }
    destruct c as [|[|[|[|[|c]]]]]; [| | | | |lia]; cbn [nth] in Hcol'.
    - destruct (Hind (- v) 1 0 0 0 0) as [Hz _]; [intros i Hi; rewrite Hcol' by lia; ring|lra].
    - destruct (Hind (- v) 0 1 0 0 0) as [Hz _]; [intros i Hi; rewrite Hcol' by lia; ring|lra].
    - destruct (Hind (- v) 0 0 1 0 0) as [Hz _]; [intros i Hi; rewrite Hcol' by lia; ring|lra].
    - destruct (Hind (- v) 0 0 0 1 0) as [Hz _]; [intros i Hi; rewrite Hcol' by lia; ring|lra].
    - destruct (Hind (- v) 0 0 0 0 1) as [Hz _]; [intros i Hi; rewrite Hcol' by lia; ring|lra]. }
  destruct HX as [[HX _]|[_ ->]]; [contradiction|].
  assert (Mpos : (0 < m)%nat).
  { destruct m as [|m']; [|lia]. exfalso. destruct (Hind 1 0 0 0 0 0) as [Hz _]; [intros i Hi; lia|lra]. }
  assert (Xn : forall i, (i < m)%nat -> nth i (map (cons 1) (cc_rows df)) [] =
     [1; nth i (d_ve df) 0; nth i (d_vcc df) 0; nth i (d_al df) 0; nth i (d_ax df) 0; nth i (d_lev df) 0]).
  { intros i Hi. rewrite (nth_map _ _ (cons 1) (cc_rows df) i [] []) by lia. rewrite Rn by exact Hi. reflexivity. }
  assert (Pl : length params = 6%nat).
  { rewrite (Hlen (nth 0 (map (cons 1) (cc_rows df)) [])); [rewrite Xn by exact Mpos; reflexivity|].
    apply nth_In. rewrite map_length. lia. }
  assert (Z : rss (map (cons 1) (cc_rows df)) (d_g df) params = 0).
  { assert (Z0 : rss (map (cons 1) (cc_rows df)) (d_g df) [-2 * s2; cve; cvcc; cal; cax; clev] = 0).
    { apply rss_exact; [rewrite map_length; lia|]. intros i Hi. rewrite map_length in Hi. rewrite Xn, Hg by lia.
      unfold row_dot, pysum. cbn [map2 fold_left]. ring. }
    specialize (Hmin [-2 * s2; cve; cvcc; cal; cax; clev]). rewrite Z0, Pl in Hmin. specialize (Hmin eq_refl).
    pose proof (rss_nonneg (map (cons 1) (cc_rows df)) (d_g df) params). lra. }
  assert (Ll : length (map (cons 1) (cc_rows df)) = length (d_g df)) by (rewrite map_length; lia).
  assert (Zr := rss_zero _ _ _ Ll Z).
  destruct params as [|p0 [|p1 [|p2 [|p3 [|p4 [|p5 [|? ?]]]]]]]; try discriminate Pl.
  destruct (Hind (p0 - -2 * s2) (p1 - cve) (p2 - cvcc) (p3 - cal) (p4 - cax) (p5 - clev)) as [D0 [D1 [D2 [D3 [D4 D5]]]]].
  - intros i Hi. rewrite Lve in Hi. specialize (Zr i). rewrite map_length, Rlen in Zr. specialize (Zr Hi).
    rewrite Xn, Hg in Zr by exact Hi. unfold row_dot, pysum in Zr. cbn [map2 fold_left] in Zr. lra.
  - repeat (f_equal; try lra).
Qed.
Print Assumptions C37_coefficients_recovered.

(** A fit exists in that situation. *)
Theorem C37_fit_exists : forall faa vcc ve al ax lev times sr n df s0 s1 s2 cve cvcc cal cax clev,
  length faa = n -> length vcc = n -> length ve = n -> length al = n -> length ax = n -> length lev = n ->
  (forall ts, times = Some ts -> length ts = n) ->
  (forall k, (k < n)%nat -> nth k faa 0 = (s0 + s1 * INR k + s2 * INR k ^ 2) -
     (cve * nth k ve 0 + cvcc * nth k vcc 0 + cal * nth k al 0 + cax * nth k ax 0 + clev * nth k lev 0)) ->
  cc_table faa vcc ve al ax lev times sr = Ok df ->
  rss (map (cons 1) (cc_rows df)) (d_g df) [-2 * s2; cve; cvcc; cal; cax; clev] = 0 /\
  is_ols (map (cons 1) (cc_rows df)) (d_g df) [-2 * s2; cve; cvcc; cal; cax; clev].
Proof.
  intros faa vcc ve al ax lev times sr n df s0 s1 s2 cve cvcc cal cax clev L0 L1 L2 L3 L4 L5 Ht Hf Hdf.
  assert (Z0 : rss (map (cons 1) (cc_rows df)) (d_g df) [-2 * s2; cve; cvcc; cal; cax; clev] = 0).
  { destruct (cc_table_rows _ _ _ _ _ _ _ _ n df L0 L1 L2 L3 L4 L5 Ht Hdf) as [bounds [B1 [B2 [B3 [E1 [E2 [E3 [E4 [E5 E6]]]]]]]]].
    rewrite !curvature_rows_starts in *. set (st := row_starts bounds) in *.
    assert (Lg : length (d_g df) = length st) by (rewrite E6, !map_length; reflexivity).
    apply rss_exact; [rewrite map_length; unfold cc_rows; rewrite map_length, seq_length; reflexivity|].
    intros i Hi. unfold cc_rows in *. rewrite !map_length, seq_length in Hi. rewrite map_map.
    rewrite nth_map_seq by exact Hi. unfold row_dot, pysum. cbn [map2 fold_left]. rewrite Lg in Hi.
    rewrite E1, E2, E3, E4, E5, E6, map_map.
    rewrite (nth_map _ _ (fun x => - curvature lp dw faa x) st i 0 0%nat) by exact Hi.
    rewrite !(nth_map _ _ _ st i 0 0%nat) by exact Hi.
    assert (Hr : (nth i st 0 + 219 < n)%nat).
    { apply (row_starts_range n (gap_opt times sr) bounds); [intros a b Hab; apply B3; exact Hab|]. apply nth_In. exact Hi. }
    set (p := nth i st 0%nat) in *.
    assert (Ec : curvature lp dw faa p = 2 * s2 + (- cve) * curvature lp dw ve p + (- cvcc) * curvature lp dw vcc p +
        (- cal) * curvature lp dw al p + (- cax) * curvature lp dw ax p + (- clev) * curvature lp dw lev p); [|rewrite Ec; ring].
    change (cf lp dw (fun k => nth k faa 0) p = 2 * s2 + (- cve) * cf lp dw (fun k => nth k ve 0) p + (- cvcc) * cf lp dw (fun k => nth k vcc 0) p +
        (- cal) * cf lp dw (fun k => nth k al 0) p + (- cax) * cf lp dw (fun k => nth k ax 0) p + (- clev) * cf lp dw (fun k => nth k lev 0) p).
    rewrite <- !cf_scal. destruct lp_low_pass as [Hsum _].
    rewrite <- (cf_quadratic lp dw s0 s1 s2 p dw_differentiates Hsum). rewrite <- !cf_plus.
    apply cf_ext. intros k Hk. rewrite Hf by lia. ring. }
  split; [exact Z0|]. split.
  - intros r Hr. apply in_map_iff in Hr. destruct Hr as [r' [<- Hr']]. unfold cc_rows in Hr'. apply in_map_iff in Hr'.
    destruct Hr' as [i [<- _]]. reflexivity.
  - intros b' _. rewrite Z0. apply rss_nonneg.
Qed.
Print Assumptions C37_fit_exists.

(** The conditions can be met, whatever the coefficients are. *)
Fixpoint ladder (p k : nat) : R := match p with O => 1 | S q => Rsum k (ladder q) end.
Lemma ladder_step p k : ladder (S p) (k + 1) = ladder (S p) k + ladder p k.
Proof. rewrite Nat.add_1_r. reflexivity. Qed.
Lemma ladder_1 k : ladder 1 k = INR k.
Proof. induction k as [|k IH]; [reflexivity|]. replace (S k) with (k + 1)%nat by lia. rewrite ladder_step, IH, plus_INR. cbn. ring. Qed.
Lemma ladder_2 k : ladder 2 k = 0 + (-1 / 2) * INR k + 1 / 2 * INR k ^ 2.
Proof. induction k as [|k IH]; [cbn; lra|]. replace (S k) with (k + 1)%nat by lia. rewrite ladder_step, IH, ladder_1, plus_INR. cbn [INR]. field. Qed.
Lemma rung_2 i : cf lp dw (ladder 2) i = 1.
Proof. rewrite (cf_ext lp dw _ _ i (fun k _ => ladder_2 k)), (cf_quadratic lp dw 0 (-1 / 2) (1 / 2) i dw_differentiates (proj1 lp_low_pass)). lra. Qed.
Lemma rung p i : cf lp dw (ladder (S p)) (i + 1) = cf lp dw (ladder (S p)) i + cf lp dw (ladder p) i.
Proof.
  rewrite <- cf_plus. transitivity (cf lp dw (fun k => ladder (S p) (k + 1)) i).
  - unfold cf. apply Rsum_ext. intros j Hj. f_equal. apply Rsum_ext. intros u Hu. apply Rsum_ext. intros v Hv. do 2 f_equal. lia.
  - apply cf_ext. intros k _. apply ladder_step.
Qed.
Definition climb (n p : nat) : list R := map (ladder p) (seq 0 n).
Lemma climb_rows n p : (1000 <= n)%nat -> map (fun r => curvature lp dw (climb n p) (0 + 1 + r)) (seq 0 (n - 0 - 420)) = map (fun r => cf lp dw (ladder p) (r + 1)) (seq 0 (n - 420)).
Proof.
  intros Hn. rewrite Nat.sub_0_r. apply map_ext_in. intros r Hr. apply in_seq in Hr. change (curvature lp dw (climb n p) (0 + 1 + r)) with (cf lp dw (fun k => nth k (climb n p) 0) (0 + 1 + r)).
  replace (0 + 1 + r)%nat with (r + 1)%nat by lia. apply cf_ext. intros k Hk. unfold climb. rewrite nth_map_seq by lia. reflexivity.
Qed.
Lemma climb_independent N : (6 <= N)%nat -> let col p := map (fun r => cf lp dw (ladder p) (r + 1)) (seq 0 N) in
  independent (col 3%nat) (col 4%nat) (col 5%nat) (col 6%nat) (col 7%nat).
Proof.
  intros HN col c0 c1 c2 c3 c4 c5 H. unfold col in H. rewrite map_length, seq_length in H.
  set (g := fun p i => cf lp dw (ladder p) i).
  assert (G : forall r, (r < N)%nat -> c0 + c1 * g 3%nat (r + 1)%nat + c2 * g 4%nat (r + 1)%nat + c3 * g 5%nat (r + 1)%nat + c4 * g 6%nat (r + 1)%nat + c5 * g 7%nat (r + 1)%nat = 0).
  { intros r Hr. specialize (H r Hr). rewrite !nth_map_seq in H by exact Hr. exact H. }
  assert (U : forall i, g 2%nat i = 1) by (intros; apply rung_2). assert (S : forall p i, g (S p) (i + 1)%nat = g (S p) i + g p i) by (intros; apply rung).
  clear H. clearbody g.
  assert (G1 : forall r, (r < N - 1)%nat -> c1 + c2 * g 3%nat (r + 1)%nat + c3 * g 4%nat (r + 1)%nat + c4 * g 5%nat (r + 1)%nat + c5 * g 6%nat (r + 1)%nat = 0).
  { intros r Hr. pose proof (G r ltac:(lia)) as A. pose proof (G (r + 1)%nat ltac:(lia)) as B. rewrite !(S _ (r + 1)%nat), U in B. lra. }
  assert (G2 : forall r, (r < N - 2)%nat -> c2 + c3 * g 3%nat (r + 1)%nat + c4 * g 4%nat (r + 1)%nat + c5 * g 5%nat (r + 1)%nat = 0).
  { intros r Hr. pose proof (G1 r ltac:(lia)) as A. pose proof (G1 (r + 1)%nat ltac:(lia)) as B. rewrite !(S _ (r + 1)%nat), U in B. lra. }
  assert (G3 : forall r, (r < N - 3)%nat -> c3 + c4 * g 3%nat (r + 1)%nat + c5 * g 4%nat (r + 1)%nat = 0).
  { intros r Hr. pose proof (G2 r ltac:(lia)) as A. pose proof (G2 (r + 1)%nat ltac:(lia)) as B. rewrite !(S _ (r + 1)%nat), U in B. lra. }
  assert (G4 : forall r, (r < N - 4)%nat -> c4 + c5 * g 3%nat (r + 1)%nat = 0).
  { intros r Hr. pose proof (G3 r ltac:(lia)) as A. pose proof (G3 (r + 1)%nat ltac:(lia)) as B. rewrite !(S _ (r + 1)%nat), U in B. lra. }
  pose proof (G4 0%nat ltac:(lia)) as A. pose proof (G4 1%nat ltac:(lia)) as B. change (1 + 1)%nat with (0 + 1 + 1)%nat in B. rewrite (S _ (0 + 1)%nat), U in B.
  assert (E5 : c5 = 0) by lra. rewrite E5 in *. assert (E4 : c4 = 0) by lra. rewrite E4 in *.
  assert (E3 : c3 = 0) by (pose proof (G3 0%nat ltac:(lia)); lra). rewrite E3 in *.
  assert (E2 : c2 = 0) by (pose proof (G2 0%nat ltac:(lia)); lra). rewrite E2 in *.
  assert (E1 : c1 = 0) by (pose proof (G1 0%nat ltac:(lia)); lra). rewrite E1 in *.
  pose proof (G 0%nat ltac:(lia)). repeat split; lra.
Qed.
Lemma independent_no_const df : length (d_g df) = length (d_ve df) -> (0 < length (d_ve df))%nat -> independent (d_ve df) (d_vcc df) (d_al df) (d_ax df) (d_lev df) ->
  is_add_constant (cc_rows df) (map (cons 1) (cc_rows df)).
Proof.
  intros L P H. right. split; [|reflexivity]. intros (c & Hc & v & Hv & K). unfold independent in H.
  assert (K' : forall i, (i < length (d_ve df))%nat -> nth c [nth i (d_ve df) 0; nth i (d_vcc df) 0; nth i (d_al df) 0; nth i (d_ax df) 0; nth i (d_lev df) 0] 0 = v).
  { intros i Hi. apply K. unfold cc_rows. apply in_map_iff. exists i. split; [reflexivity|]. apply in_seq. lia. }
  destruct c as [|[|[|[|[|c]]]]]; cbn [nth] in K'; [..|lia].
  - destruct (H (- v) 1 0 0 0 0) as [E _]; [intros i Hi; rewrite K' by exact Hi; ring|lra].
  - destruct (H (- v) 0 1 0 0 0) as [E _]; [intros i Hi; rewrite K' by exact Hi; ring|lra].
  - destruct (H (- v) 0 0 1 0 0) as [E _]; [intros i Hi; rewrite K' by exact Hi; ring|lra].
  - destruct (H (- v) 0 0 0 1 0) as [E _]; [intros i Hi; rewrite K' by exact Hi; ring|lra].
  - destruct (H (- v) 0 0 0 0 1) as [E _]; [intros i Hi; rewrite K' by exact Hi; ring|lra].
Qed.
Theorem C37_recoverable : forall n s0 s1 s2 cve cvcc cal cax clev, (1000 <= n)%nat ->
  exists faa vcc ve al ax lev df, length faa = n /\ length vcc = n /\ length ve = n /\ length al = n /\ length ax = n /\ length lev = n /\
  (forall k, (k < n)%nat -> nth k faa 0 = (s0 + s1 * INR k + s2 * INR k ^ 2) -
     (cve * nth k ve 0 + cvcc * nth k vcc 0 + cal * nth k al 0 + cax * nth k ax 0 + clev * nth k lev 0)) /\
  cc_table faa vcc ve al ax lev None 1 = Ok df /\ independent (d_ve df) (d_vcc df) (d_al df) (d_ax df) (d_lev df) /\
  cc_params df [-2 * s2; cve; cvcc; cal; cax; clev].
Proof.
  intros n s0 s1 s2 cve cvcc cal cax clev Hn.
  set (faa := map (fun k => (s0 + s1 * INR k + s2 * INR k ^ 2) - (cve * ladder 3 k + cvcc * ladder 4 k + cal * ladder 5 k + cax * ladder 6 k + clev * ladder 7 k)) (seq 0 n)).
  assert (Lf : length faa = n) by (unfold faa; rewrite map_length, seq_length; reflexivity).
  assert (Lc : forall p, length (climb n p) = n) by (intros p; unfold climb; rewrite map_length, seq_length; reflexivity).
  assert (Hf : forall k, (k < n)%nat -> nth k faa 0 = (s0 + s1 * INR k + s2 * INR k ^ 2) -
     (cve * nth k (climb n 3) 0 + cvcc * nth k (climb n 4) 0 + cal * nth k (climb n 5) 0 + cax * nth k (climb n 6) 0 + clev * nth k (climb n 7) 0)).
  { intros k Hk. unfold faa, climb. rewrite !nth_map_seq by exact Hk. reflexivity. }
  destruct (cc_table faa (climb n 4) (climb n 3) (climb n 5) (climb n 6) (climb n 7) None 1) as [df|e] eqn:E.
  2:{ exfalso. unfold cc_table, end_inds, used_bounds, seg_bounds in E. rewrite Lf in E. cbn [map combine filter fst snd] in E. rewrite Nat.min_id, Nat.sub_0_r in E.
      destruct (Nat.ltb_spec n 1000); [lia|]. cbn [negb] in E. discriminate. }
  exists faa, (climb n 4), (climb n 3), (climb n 5), (climb n 6), (climb n 7), df. split; [exact Lf|]. do 5 (split; [apply Lc|]). split; [exact Hf|]. split; [exact E|].
  assert (I : independent (d_ve df) (d_vcc df) (d_al df) (d_ax df) (d_lev df) /\ length (d_g df) = (n - 420)%nat /\ length (d_ve df) = (n - 420)%nat).
  { unfold cc_table, end_inds, used_bounds, seg_bounds in E. rewrite Lf in E. cbn [map combine filter fst snd] in E. rewrite Nat.min_id, Nat.sub_0_r in E.
    destruct (Nat.ltb_spec n 1000); [lia|]. cbn [negb] in E. apply ok_inj in E. subst df. cbn [d_ve d_vcc d_al d_ax d_lev d_g].
    assert (B : forall x : list R, length x = n -> Forall (fun ab => (fst ab + 1000 <= snd ab <= length x)%nat) [(0, n)%nat]) by (intros x Hx; constructor; [cbn; lia|constructor]).
    rewrite !cc_series_rows by (apply B; auto). unfold curvature_rows. cbn [map concat fst snd]. rewrite !app_nil_r, !climb_rows by exact Hn. rewrite !map_length, !seq_length.
    split; [|split; lia]. apply (climb_independent (n - 420)). lia. }
  destruct I as (I & I1 & I2). split; [exact I|]. exists (map (cons 1) (cc_rows df)). split; [apply independent_no_const; [lia|lia|exact I]|].
  apply (C37_fit_exists faa (climb n 4) (climb n 3) (climb n 5) (climb n 6) (climb n 7) None 1 n df s0 s1 s2 cve cvcc cal cax clev); auto. discriminate.
Qed.
Print Assumptions C37_recoverable.

Example C37_case : forall b, is_ols [[1; 0]; [1; 1]; [1; 2]] [3; 5; 7] b -> length b = 2%nat -> b = [3; 2].
Proof.
  intros b [_ H] L. destruct b as [|p [|q [|? ?]]]; try discriminate L.
  specialize (H [3; 2] eq_refl). unfold rss, row_dot, pysum in H. cbn [map2 fold_left] in H.
  assert (A : (3 - p) ^ 2 + (5 - (p + q)) ^ 2 <= 0) by (pose proof (pow2_ge_0 (7 - (p + 2 * q))); lra).
  pose proof (pow2_ge_0 (3 - p)) as B1. pose proof (pow2_ge_0 (5 - (p + q))) as B2.
  assert (C1 : Rsqr (3 - p) = 0) by (unfold Rsqr; lra). assert (C2 : Rsqr (5 - (p + q)) = 0) by (unfold Rsqr; lra).
  apply Rsqr_0_uniq in C1. apply Rsqr_0_uniq in C2. f_equal; [lra|f_equal; lra].
Qed.
