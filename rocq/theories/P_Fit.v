(** Property C106: the cross-coupling fit of readings to which a combination of the monitors is added. *)
From Coq Require Import List Reals Lra Lia.
From Verif Require Import M_Py M_Np M_CC M_Level S_Base S_CC S_Ccp L_Base L_Np L_CC L_Ols P_CC L_Level P_Level.
Import ListNotations.
Open Scope R_scope.

Lemma table_shift faa faa' vcc ve al ax lev times sr n df s0 s1 s2 cve cvcc cal cax clev :
  length faa = n -> length faa' = n -> length vcc = n -> length ve = n -> length al = n -> length ax = n -> length lev = n ->
  (forall ts, times = Some ts -> length ts = n) ->
  (forall k, (k < n)%nat -> nth k faa' 0 = nth k faa 0 + (s0 + s1 * INR k + s2 * INR k ^ 2) -
     (cve * nth k ve 0 + cvcc * nth k vcc 0 + cal * nth k al 0 + cax * nth k ax 0 + clev * nth k lev 0)) ->
  cc_table faa vcc ve al ax lev times sr = Ok df ->
  exists g', cc_table faa' vcc ve al ax lev times sr = Ok (mk_df (d_ve df) (d_vcc df) (d_al df) (d_ax df) (d_lev df) g') /\
    length g' = length (d_g df) /\ length (d_ve df) = length (d_g df) /\
    forall i, (i < length g')%nat -> nth i g' 0 = nth i (d_g df) 0 +
     (-2 * s2 + cve * nth i (d_ve df) 0 + cvcc * nth i (d_vcc df) 0 + cal * nth i (d_al df) 0 + cax * nth i (d_ax df) 0 + clev * nth i (d_lev df) 0).
Proof.
  intros L0 L0' L1 L2 L3 L4 L5 Ht Hf Hdf.
  destruct (cc_table_rows _ _ _ _ _ _ _ _ n df L0 L1 L2 L3 L4 L5 Ht Hdf) as [bounds [B1 [B2 [B3 [E1 [E2 [E3 [E4 [E5 E6]]]]]]]]].
  assert (X : exists g', cc_table faa' vcc ve al ax lev times sr = Ok (mk_df (d_ve df) (d_vcc df) (d_al df) (d_ax df) (d_lev df) g')).
  { unfold cc_table in *. rewrite L0 in Hdf. rewrite L0'. destruct (used_bounds n (end_inds n times sr)) as [|ab ub]; [discriminate|].
    assert (Ed := f_equal (fun r => match r with Ok d => d | Raise _ => df end) Hdf). cbn beta iota in Ed. rewrite <- Ed. cbn [d_ve d_vcc d_al d_ax d_lev]. eexists. reflexivity. }
  destruct X as [g' Hdf']. exists g'. split; [exact Hdf'|].
  destruct (cc_table_rows _ _ _ _ _ _ _ _ n _ L0' L1 L2 L3 L4 L5 Ht Hdf') as [bounds' [B1' [B2' [B3' [E1' [_ [_ [_ [_ E6']]]]]]]]]. cbn [d_ve d_g] in E1', E6'.
  assert (Eg : g' = map Ropp (curvature_rows lp dw bounds faa')).
  { unfold cc_table in Hdf, Hdf'. rewrite L0 in Hdf. rewrite L0' in Hdf'.
    pose proof (used_bounds_spec n times sr Ht) as Hs. set (ub := used_bounds n (end_inds n times sr)) in *.
    assert (Eb : bounds' = bounds); [|subst bounds'; exact E6'].
    assert (Un : forall l l' : list (nat * nat), ForallOrdPairs (fun p q : nat * nat => (snd p < fst q)%nat) l -> ForallOrdPairs (fun p q : nat * nat => (snd p < fst q)%nat) l' ->
      (forall a b, In (a, b) l -> (a <= b)%nat) -> (forall a b, In (a, b) l <-> In (a, b) l') -> l = l').
    { induction l as [|[a b] l IH]; intros [|[a' b'] l'] H H' Hle Hi; [reflexivity|exfalso; apply (proj2 (Hi a' b')); left; reflexivity|exfalso; apply (proj1 (Hi a b)); left; reflexivity|].
      inversion H as [|? ? F1 F2]; subst. inversion H' as [|? ? F1' F2']; subst. rewrite Forall_forall in F1, F1'.
      assert (Eab : (a, b) = (a', b')).
      { destruct (proj1 (Hi a b) (or_introl eq_refl)) as [E|I]; [congruence|]. destruct (proj2 (Hi a' b') (or_introl eq_refl)) as [E|I']; [congruence|].
        pose proof (F1 _ I') as Q1. pose proof (F1' _ I) as Q2. cbn [fst snd] in *. pose proof (Hle a b (or_introl eq_refl)). pose proof (Hle a' b' (or_intror I')). lia. }
      f_equal; [exact Eab|]. apply IH; [assumption|assumption|intros; apply Hle; right; assumption|]. intros x z. split; intros I.
      - destruct (proj1 (Hi x z) (or_intror I)) as [E|I']; [|exact I']. exfalso. specialize (F1 _ I). rewrite <- Eab in E. assert (x = a /\ z = b) as [-> ->] by (split; congruence). cbn [fst snd] in F1. pose proof (Hle a b (or_introl eq_refl)). lia.
      - destruct (proj2 (Hi x z) (or_intror I)) as [E|I']; [|exact I']. exfalso. specialize (F1' _ I). rewrite Eab in E. assert (x = a' /\ z = b') as [-> ->] by (split; congruence). cbn [fst snd] in F1'.
        assert (a = a' /\ b = b') as [-> ->] by (split; congruence). pose proof (Hle a' b' (or_introl eq_refl)). lia. }
    apply Un; [exact B2'|exact B2|intros a b I; apply B3' in I; destruct I; lia|]. intros a b. rewrite B3, B3'. tauto. }
  clear E6' B1' B2' B3' E1' bounds'. set (st := row_starts bounds) in *. rewrite !curvature_rows_starts in *. fold st in E1, E2, E3, E4, E5, E6, Eg.
  assert (Lg : length g' = length st) by (rewrite Eg, !map_length; reflexivity).
  assert (Lg0 : length (d_g df) = length st) by (rewrite E6, !map_length; reflexivity).
  split; [congruence|]. split; [rewrite E1, map_length; congruence|]. rewrite Lg. intros i Hi. rewrite Eg, E1, E2, E3, E4, E5, E6, !map_map.
  rewrite (nth_map _ _ (fun x => - curvature lp dw faa x) st i 0 0%nat) by exact Hi. rewrite (nth_map _ _ (fun x => - curvature lp dw faa' x) st i 0 0%nat) by exact Hi.
  rewrite !(nth_map _ _ _ st i 0 0%nat) by exact Hi.
  assert (Hr : (nth i st 0 + 219 < n)%nat).
  { apply (row_starts_range n (gap_opt times sr) bounds); [intros a b Hab; apply B3; exact Hab|]. apply nth_In. exact Hi. }
  set (p := nth i st 0%nat) in *.
  assert (Ec : curvature lp dw faa' p = curvature lp dw faa p + (2 * s2 + (- cve) * curvature lp dw ve p + (- cvcc) * curvature lp dw vcc p +
      (- cal) * curvature lp dw al p + (- cax) * curvature lp dw ax p + (- clev) * curvature lp dw lev p)); [|rewrite Ec; ring].
  change (cf lp dw (fun k => nth k faa' 0) p = cf lp dw (fun k => nth k faa 0) p + (2 * s2 + (- cve) * cf lp dw (fun k => nth k ve 0) p + (- cvcc) * cf lp dw (fun k => nth k vcc 0) p +
      (- cal) * cf lp dw (fun k => nth k al 0) p + (- cax) * cf lp dw (fun k => nth k ax 0) p + (- clev) * cf lp dw (fun k => nth k lev 0) p)).
  rewrite <- !cf_scal. destruct lp_low_pass as [Hsum _].
  rewrite <- (cf_quadratic lp dw s0 s1 s2 p dw_differentiates Hsum). rewrite <- !cf_plus.
  apply cf_ext. intros k Hk. rewrite Hf by lia. ring.
Qed.

(** The fitted values of the two tables differ by the combination. *)
Lemma fit_shift df g' a0 a1 a2 a3 a4 a5 p p' :
  let df' := mk_df (d_ve df) (d_vcc df) (d_al df) (d_ax df) (d_lev df) g' in
  length g' = length (d_g df) -> length (d_ve df) = length (d_g df) ->
  (forall i, (i < length g')%nat -> nth i g' 0 = nth i (d_g df) 0 +
     (a0 + a1 * nth i (d_ve df) 0 + a2 * nth i (d_vcc df) 0 + a3 * nth i (d_al df) 0 + a4 * nth i (d_ax df) 0 + a5 * nth i (d_lev df) 0)) ->
  determined (d_ve df) (d_vcc df) (d_al df) (d_ax df) (d_lev df) -> cc_params df p -> cc_params df' p' ->
  (forall j, (j < 4)%nat -> named_param p' j = named_param p j + nth j [a1; a2; a3; a4] 0) /\
  (independent (d_ve df) (d_vcc df) (d_al df) (d_ax df) (d_lev df) -> p' = map2 Rplus p [a0; a1; a2; a3; a4; a5]).
Proof.
  intros df' Lg Lv Hg Hd [X [HX HO]] [X' [HX' HO']].
  assert (Er : cc_rows df' = cc_rows df) by (unfold cc_rows, df'; cbn [d_ve d_vcc d_al d_ax d_lev d_g]; rewrite Lg; reflexivity). rewrite Er in HX'. cbn [d_g df'] in HO'.
  set (m := length g') in *.
  assert (Rlen : length (cc_rows df) = m) by (unfold cc_rows; rewrite map_length, seq_length; congruence).
  assert (Rn : forall i, (i < m)%nat -> nth i (cc_rows df) [] = [nth i (d_ve df) 0; nth i (d_vcc df) 0; nth i (d_al df) 0; nth i (d_ax df) 0; nth i (d_lev df) 0]).
  { intros i Hi. unfold cc_rows. rewrite nth_map_seq by lia. reflexivity. }
  assert (Mpos : (0 < m)%nat).
  { destruct m as [|m'] eqn:Em; [|lia]. exfalso. destruct (Hd 0 1 0 0 0 0) as [Hz _]; [intros i Hi; lia|lra]. }
  assert (Col : forall v c, (c < 5)%nat -> v <> 0 -> (forall r, In r (cc_rows df) -> nth c r 0 = v) -> c = 4%nat).
  { intros v c Hc Hv Hcol.
    assert (Hcol' : forall i, (i < m)%nat -> nth c [nth i (d_ve df) 0; nth i (d_vcc df) 0; nth i (d_al df) 0; nth i (d_ax df) 0; nth i (d_lev df) 0] 0 = v).
    { intros i Hi. rewrite <- Rn by exact Hi. apply Hcol. apply nth_In. lia. }
    destruct c as [|[|[|[|[|c]]]]]; [| | | |reflexivity|lia]; cbn [nth] in Hcol'; exfalso.
    - destruct (Hd (- v) 1 0 0 0 0) as (H1 & H2 & H3 & H4); [intros i Hi; rewrite Hcol' by lia; ring|lra].
    - destruct (Hd (- v) 0 1 0 0 0) as (H1 & H2 & H3 & H4); [intros i Hi; rewrite Hcol' by lia; ring|lra].
    - destruct (Hd (- v) 0 0 1 0 0) as (H1 & H2 & H3 & H4); [intros i Hi; rewrite Hcol' by lia; ring|lra].
    - destruct (Hd (- v) 0 0 0 1 0) as (H1 & H2 & H3 & H4); [intros i Hi; rewrite Hcol' by lia; ring|lra]. }
  destruct HX as [[(c & Hc & v & Hv & Hcol) ->]|[NC ->]]; destruct HX' as [[Hc' ->]|[NC' ->]]; try (exfalso; apply NC' || apply NC; exists c; split; [exact Hc|exists v; split; assumption]); try contradiction.
  - pose proof (Col v c Hc Hv Hcol) as ->.
    assert (Lc : forall i, (i < m)%nat -> nth i (d_lev df) 0 = v).
    { intros i Hi. specialize (Hcol (nth i (cc_rows df) [])). rewrite Rn in Hcol by exact Hi. cbn [nth] in Hcol. apply Hcol. rewrite <- Rn by exact Hi. apply nth_In. lia. }
    assert (Ne : cc_rows df <> []) by (intros E; rewrite E in Rlen; cbn in Rlen; lia).
    assert (Lp : forall b y, is_ols (cc_rows df) y b -> length b = 5%nat).
    { intros b y [Hl _]. rewrite (Hl (nth 0 (cc_rows df) [])) by (apply nth_In; lia). rewrite Rn by exact Mpos. reflexivity. }
    pose proof (Lp _ _ HO) as L5. pose proof (Lp _ _ HO') as L5'.
    pose proof (ols_shift (cc_rows df) (d_g df) g' p [a1; a2; a3; a4; a5 + a0 / v] ltac:(congruence) Rlen Ne ltac:(rewrite L5; reflexivity)) as Sh.
    assert (Hs : is_ols (cc_rows df) g' (comb 1 1 p [a1; a2; a3; a4; a5 + a0 / v])).
    { apply Sh; [|exact HO]. intros i Hi. rewrite Rlen in Hi. rewrite Hg, Rn by exact Hi. unfold row_dot. cbn [map2]. rewrite !pysum_cons, pysum_nil, (Lc i Hi). field. exact Hv. }
    pose proof (ols_unique _ _ _ _ Rlen Ne Hs HO') as U.
    destruct p as [|p1 [|p2 [|p3 [|p4 [|p5 [|? ?]]]]]]; try discriminate L5. destruct p' as [|q1 [|q2 [|q3 [|q4 [|q5 [|? ?]]]]]]; try discriminate L5'. split.
    + destruct (Hd 0 (q1 - p1 - a1) (q2 - p2 - a2) (q3 - p3 - a3) (q4 - p4 - a4) (q5 - p5 - (a5 + a0 / v))) as (D1 & D2 & D3 & D4).
      { intros i Hi. rewrite Lv in Hi. assert (Hi' : (i < m)%nat) by lia. specialize (U (nth i (cc_rows df) []) ltac:(apply nth_In; lia)). rewrite Rn in U by exact Hi'.
        unfold row_dot, comb in U. cbn [map2] in U. rewrite !pysum_cons, pysum_nil in U. lra. }
      intros j Hj. destruct j as [|[|[|[|j]]]]; [| | | |lia]; unfold named_param; cbn [length Nat.sub Nat.add nth]; lra.
    + intros Hind. exfalso. destruct (Hind (- v) 0 0 0 0 1) as [Hz _]; [intros i Hi; rewrite Lc by lia; ring|lra].
  - set (X := map (cons 1) (cc_rows df)) in *. assert (XL : length X = m) by (unfold X; rewrite map_length; exact Rlen).
    assert (Ne : X <> []) by (intros E; rewrite E in XL; cbn in XL; lia).
    assert (Xn : forall i, (i < m)%nat -> nth i X [] = [1; nth i (d_ve df) 0; nth i (d_vcc df) 0; nth i (d_al df) 0; nth i (d_ax df) 0; nth i (d_lev df) 0]).
    { intros i Hi. unfold X. rewrite (nth_map _ _ (cons 1) (cc_rows df) i [] []) by lia. rewrite Rn by exact Hi. reflexivity. }
    assert (Lp : forall b y, is_ols X y b -> length b = 6%nat).
    { intros b y [Hl _]. rewrite (Hl (nth 0 X [])) by (apply nth_In; lia). rewrite Xn by exact Mpos. reflexivity. }
    pose proof (Lp _ _ HO) as L6. pose proof (Lp _ _ HO') as L6'.
    pose proof (ols_shift X (d_g df) g' p [a0; a1; a2; a3; a4; a5] ltac:(congruence) XL Ne ltac:(rewrite L6; reflexivity)) as Sh.
    assert (Hs : is_ols X g' (comb 1 1 p [a0; a1; a2; a3; a4; a5])).
    { apply Sh; [|exact HO]. intros i Hi. rewrite XL in Hi. rewrite Hg, Xn by exact Hi. unfold row_dot. cbn [map2]. rewrite !pysum_cons, pysum_nil. ring. }
    pose proof (ols_unique _ _ _ _ XL Ne Hs HO') as U.
    destruct p as [|p0 [|p1 [|p2 [|p3 [|p4 [|p5 [|? ?]]]]]]]; try discriminate L6. destruct p' as [|q0 [|q1 [|q2 [|q3 [|q4 [|q5 [|? ?]]]]]]]; try discriminate L6'.
    assert (W : forall i, (i < length (d_ve df))%nat -> (q0 - p0 - a0) + (q1 - p1 - a1) * nth i (d_ve df) 0 + (q2 - p2 - a2) * nth i (d_vcc df) 0 + (q3 - p3 - a3) * nth i (d_al df) 0
       + (q4 - p4 - a4) * nth i (d_ax df) 0 + (q5 - p5 - a5) * nth i (d_lev df) 0 = 0).
    { intros i Hi. rewrite Lv in Hi. assert (Hi' : (i < m)%nat) by lia. specialize (U (nth i X []) ltac:(apply nth_In; lia)). rewrite Xn in U by exact Hi'.
      unfold row_dot, comb in U. cbn [map2] in U. rewrite !pysum_cons, pysum_nil in U. lra. }
    split.
    + destruct (Hd _ _ _ _ _ _ W) as (D1 & D2 & D3 & D4). intros j Hj. destruct j as [|[|[|[|j]]]]; [| | | |lia]; unfold named_param; cbn [length Nat.sub Nat.add nth]; lra.
    + intros Hind. destruct (Hind _ _ _ _ _ _ W) as (D0 & D1 & D2 & D3 & D4 & D5). cbn [map2]. repeat (f_equal; try lra).
Qed.

(** C106: noise and signal of any kind in the readings; what a combination of the monitors and a parabola add to them appears in the coefficients, exactly. *)
Theorem C106_fit : forall faa faa' vcc ve al ax lev times sr n df s0 s1 s2 cve cvcc cal cax clev,
  length faa = n -> length faa' = n -> length vcc = n -> length ve = n -> length al = n -> length ax = n -> length lev = n ->
  (forall ts, times = Some ts -> length ts = n) ->
  (forall k, (k < n)%nat -> nth k faa' 0 = nth k faa 0 + (s0 + s1 * INR k + s2 * INR k ^ 2) -
     (cve * nth k ve 0 + cvcc * nth k vcc 0 + cal * nth k al 0 + cax * nth k ax 0 + clev * nth k lev 0)) ->
  cc_table faa vcc ve al ax lev times sr = Ok df -> independent (d_ve df) (d_vcc df) (d_al df) (d_ax df) (d_lev df) ->
  exists df', cc_table faa' vcc ve al ax lev times sr = Ok df' /\
    forall p p', cc_params df p -> cc_params df' p' -> p' = map2 Rplus p [-2 * s2; cve; cvcc; cal; cax; clev].
Proof.
  intros faa faa' vcc ve al ax lev times sr n df s0 s1 s2 cve cvcc cal cax clev L0 L0' L1 L2 L3 L4 L5 Ht Hf Hdf Hi.
  destruct (table_shift _ _ _ _ _ _ _ _ _ n df _ _ _ _ _ _ _ _ L0 L0' L1 L2 L3 L4 L5 Ht Hf Hdf) as (g' & E & Lg & Lv & Hg).
  eexists. split; [exact E|]. intros p p' Hp Hp'. refine (proj2 (fit_shift df g' _ _ _ _ _ _ p p' Lg Lv Hg _ Hp Hp') Hi).
  intros c0 c1 c2 c3 c4 c5 Hc. destruct (Hi _ _ _ _ _ _ Hc) as (_ & R). tauto.
Qed.
Print Assumptions C106_fit.

(** The corrected anomaly of the script does not see them. *)
Theorem C106_correction : forall faa faa' vcc ve al ax level n df s0 s1 s2 cve cvcc cal cax,
  length faa = n -> length faa' = n -> length vcc = n -> length ve = n -> length al = n -> length ax = n -> length level = n ->
  (forall k, (k + 2 < n)%nat -> nth (k + 2) faa' 0 = nth (k + 2) faa 0 + (s0 + s1 * INR k + s2 * INR k ^ 2) -
     (cve * nth (k + 2) ve 0 + cvcc * nth (k + 2) vcc 0 + cal * nth (k + 2) al 0 + cax * nth (k + 2) ax 0)) ->
  ccp_table faa vcc ve al ax level = Ok df -> determined (d_ve df) (d_vcc df) (d_al df) (d_ax df) (d_lev df) ->
  exists df', ccp_table faa' vcc ve al ax level = Ok df' /\
    forall p p', cc_params df p -> cc_params df' p' -> forall k, (k + 2 < n)%nat ->
      exists u u', nth_error (faa_ccp p faa vcc ve al ax) k = Some u /\ nth_error (faa_ccp p' faa' vcc ve al ax) k = Some u' /\ u' = u + (s0 + s1 * INR k + s2 * INR k ^ 2).
Proof.
  intros faa faa' vcc ve al ax level n df s0 s1 s2 cve cvcc cal cax L0 L0' L1 L2 L3 L4 L5 Hf Hdf Hd.
  assert (N : forall x k, nth k (skipn 2 x) 0 = nth (k + 2) x 0) by (intros [|a [|b x]] k; rewrite Nat.add_comm; destruct k; reflexivity).
  unfold ccp_table in *. rewrite <- (cc_table_trunc _ _ _ _ _ level (n - 2)) in Hdf by (rewrite skipn_length, L0; reflexivity).
  rewrite <- (cc_table_trunc _ _ _ _ _ level (n - 2)) by (rewrite skipn_length, L0'; reflexivity).
  destruct (table_shift (skipn 2 faa) (skipn 2 faa') (skipn 2 vcc) (skipn 2 ve) (skipn 2 al) (skipn 2 ax) (firstn (n - 2) level) None 1 (n - 2)%nat df s0 s1 s2 cve cvcc cal cax 0) as (g' & E & Lg & Lv & Hg);
    try (rewrite ?firstn_length, ?skipn_length; lia); [discriminate|intros k Hk; rewrite !N, Hf by lia; ring|exact Hdf|].
  eexists. split; [exact E|]. intros p p' Hp Hp' k Hk. destruct (fit_shift df g' _ _ _ _ _ _ p p' Lg Lv Hg Hd Hp Hp') as [D _].
  assert (W : forall p faa, length faa = n -> nth_error (faa_ccp p faa vcc ve al ax) k = Some (nth (k + 2) faa 0 + named_param p 0 * nth (k + 2) ve 0 + named_param p 1 * nth (k + 2) vcc 0
    + named_param p 2 * nth (k + 2) al 0 + named_param p 3 * nth (k + 2) ax 0)).
  { intros q f Lf. unfold faa_ccp. rewrite nth_error_map, skipn_length, Lf. rewrite (nth_error_nth' _ 0%nat) by (rewrite seq_length; lia). rewrite seq_nth by lia. cbn [option_map Nat.add]. rewrite !N. reflexivity. }
  do 2 eexists. split; [apply W; exact L0|]. split; [apply W; exact L0'|].
  rewrite (D 0%nat), (D 1%nat), (D 2%nat), (D 3%nat), Hf by lia. cbn [nth]. ring.
Qed.
Print Assumptions C106_correction.

(** A fit exists for every table. *)
Theorem C106_fit_exists : forall faa vcc ve al ax lev times sr n df,
  length faa = n -> length vcc = n -> length ve = n -> length al = n -> length ax = n -> length lev = n -> (forall ts, times = Some ts -> length ts = n) ->
  cc_table faa vcc ve al ax lev times sr = Ok df -> exists p, cc_params df p /\ (length p = 5%nat \/ length p = 6%nat).
Proof.
  intros faa vcc ve al ax lev times sr n df L0 L1 L2 L3 L4 L5 Ht Hdf. unfold cc_params, is_add_constant.
  assert (Rl : length (cc_rows df) = length (d_g df)) by (unfold cc_rows; rewrite map_length, seq_length; reflexivity).
  assert (R5 : forall r, In r (cc_rows df) -> length r = 5%nat) by (intros r Hr; unfold cc_rows in Hr; apply in_map_iff in Hr; destruct Hr as (i & <- & _); reflexivity).
  assert (D : forall c, {const_col (cc_rows df) c} + {~ const_col (cc_rows df) c}).
  { intros c. unfold const_col. generalize (cc_rows df). intros rows. destruct rows as [|r rows]; [left; exists 1; split; [lra|intros r []]|].
    destruct (Req_EM_T (nth c r 0) 0) as [Z|Z]; [right; intros (v & Hv & H); rewrite (H r (or_introl eq_refl)) in Z; contradiction|].
    destruct (Forall_dec (fun s => nth c s 0 = nth c r 0) (fun s => Req_EM_T (nth c s 0) (nth c r 0)) rows) as [F|F].
    - left. exists (nth c r 0). split; [exact Z|]. rewrite Forall_forall in F. intros s [<-|I]; [reflexivity|apply F; exact I].
    - right. intros (v & Hv & H). apply F. apply Forall_forall. intros s I. rewrite (H s (or_intror I)), (H r (or_introl eq_refl)). reflexivity. }
  assert (D5 : (exists c, (c < 5)%nat /\ const_col (cc_rows df) c) \/ ~ (exists c, (c < 5)%nat /\ const_col (cc_rows df) c)).
  { destruct (D 0%nat), (D 1%nat), (D 2%nat), (D 3%nat), (D 4%nat); try (left; eexists; split; [|eassumption]; lia). right. intros ([|[|[|[|[|c]]]]] & Hc & H); [contradiction|contradiction|contradiction|contradiction|contradiction|lia]. }
  destruct D5 as [H|H].
  - destruct (ols_exists (cc_rows df) (d_g df) 5 Rl R5) as (b & Lb & Hb). exists b. split; [|left; exact Lb]. exists (cc_rows df). split; [left; split; [exact H|reflexivity]|exact Hb].
  - destruct (ols_exists (map (cons 1) (cc_rows df)) (d_g df) 6) as (b & Lb & Hb); [rewrite map_length; exact Rl|intros r Hr; apply in_map_iff in Hr; destruct Hr as (s & <- & Hs); cbn [length]; rewrite (R5 s Hs); reflexivity|].
    exists b. split; [|right; exact Lb]. exists (map (cons 1) (cc_rows df)). split; [right; split; [exact H|reflexivity]|exact Hb].
Qed.
Print Assumptions C106_fit_exists.
(** Data with independent monitors, for any readings; the correction of two records. *)
Example C106_case : exists vcc ve al ax lev, length vcc = 1002%nat /\ length lev = 1002%nat /\ forall faa c, length faa = 1002%nat ->
  exists df df' p p', ccp_table faa vcc ve al ax lev = Ok df /\ ccp_table (map2 (fun g v => g - c * v) faa vcc) vcc ve al ax lev = Ok df' /\ cc_params df p /\ cc_params df' p' /\
    forall k, (k < 1000)%nat -> nth_error (faa_ccp p faa vcc ve al ax) k = nth_error (faa_ccp p' (map2 (fun g v => g - c * v) faa vcc) vcc ve al ax) k.
Proof.
  destruct (C84_correctable 1002 0 0 0 0 0 0 0 0 ltac:(lia)) as (f0 & vcc & ve & al & ax & lev & d0 & p0 & L0 & L1 & L2 & L3 & L4 & L5 & _ & E0 & I0 & _).
  exists vcc, ve, al, ax, lev. split; [exact L1|]. split; [exact L5|]. intros faa c Lf.
  destruct C84_rows as (h & d & _ & _ & R). destruct (R faa vcc ve al ax lev 1002%nat Lf L1 L2 L3 L4 L5) as [_ R1]. destruct (R1 (le_n _)) as (df & E & E1 & E2 & E3 & E4 & _ & E6).
  destruct (R f0 vcc ve al ax lev 1002%nat L0 L1 L2 L3 L4 L5) as [_ R2]. destruct (R2 (le_n _)) as (df0 & E0' & F1 & F2 & F3 & F4 & _ & F6). assert (df0 = d0) by congruence. subst df0.
  rewrite F1, F2, F3, F4, F6, <- E1, <- E2, <- E3, <- E4, <- E6 in I0.
  assert (Lf' : length (map2 (fun g v => g - c * v) faa vcc) = 1002%nat) by (rewrite map2_length, Lf, L1; reflexivity).
  destruct (C106_correction faa (map2 (fun g v => g - c * v) faa vcc) vcc ve al ax lev 1002 df 0 0 0 0 c 0 0 Lf Lf' L1 L2 L3 L4 L5) as (df' & E' & V); [|exact E| |].
  - intros k Hk. rewrite (map2_nth _ _ _ _ _ _ _ 0 0) by lia. ring.
  - intros c0 c1 c2 c3 c4 c5 Hc. destruct (I0 _ _ _ _ _ _ Hc) as (_ & H). tauto.
  - assert (Fe : forall faa df, length faa = 1002%nat -> ccp_table faa vcc ve al ax lev = Ok df -> exists p, cc_params df p).
    { intros f g Lg Hg. unfold ccp_table in Hg. rewrite <- (cc_table_trunc _ _ _ _ _ lev 1000) in Hg by (rewrite skipn_length, Lg; reflexivity).
      destruct (C106_fit_exists (skipn 2 f) (skipn 2 vcc) (skipn 2 ve) (skipn 2 al) (skipn 2 ax) (firstn 1000 lev) None 1 1000%nat g) as (p & Hp & _); try (rewrite ?firstn_length, ?skipn_length; lia); [discriminate|exact Hg|exists p; exact Hp]. }
    destruct (Fe _ _ Lf E) as [p Hp]. destruct (Fe _ _ Lf' E') as [p' Hp']. exists df, df', p, p'. repeat (split; [assumption|]).
    intros k Hk. destruct (V p p' Hp Hp' k ltac:(lia)) as (u & u' & U & U' & Eu). rewrite U, U', Eu. f_equal. ring.
Qed.
