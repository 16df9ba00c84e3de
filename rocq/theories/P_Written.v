(** Property C97: every time and position that comes out of the navigation readers is written in its line. *)
From Coq Require Import ZArith QArith Qabs Reals Qreals Ascii String Bool Lia Lra List.
From Verif Require Import M_Py L_Base M_Str S_Str L_Str M_Cal S_Cal L_Cal M_Nmea S_Nmea L_Nmea L_Nav2 L_Revelle S_Table L_Num L_Table S_Other L_Other S_Written L_Written P_Nmea.
Import ListNotations.
Open Scope Z_scope.
Local Notation len := List.length.

Lemma mapM_length (A B : Type) (f : A -> res B) l r : mapM f l = Ok r -> len r = len l.
Proof. intros H. apply mapM_Forall2_inv in H. induction H; cbn [List.length]; congruence. Qed.
Lemma talker_occurs talker allnav : Forall (occurs talker) (talker_lines talker allnav).
Proof. apply Forall_forall. intros x Hx. unfold talker_lines in Hx. apply filter_In in Hx. apply containsb_spec. apply Hx. Qed.

Lemma dated_inv allnav talker f ts : dated allnav talker f = Ok ts ->
  Forall2 (fun ln t => exists c pre i, clock_line talker ln = Ok c /\ pre_part talker ln = Ok pre /\ f pre c = Ok i /\ t = Some i) (talker_lines talker allnav) ts.
Proof.
  unfold dated, clock_time. set (sub := talker_lines talker allnav). intros H.
  destruct (mapM (clock_line talker) sub) as [clocks|] eqn:Ec; [|discriminate]. cbn [bind] in H.
  destruct (mapM _ (combine sub clocks)) as [t|] eqn:Et; [|discriminate]. cbn [bind] in H. assert (E : ts = map Some t) by congruence. subst ts. clear H.
  apply mapM_Forall2_inv in Ec. apply mapM_Forall2_inv in Et. clearbody sub. revert t Et.
  induction Ec as [|ln c sub clocks Hc _ IH]; intros t Et; inversion Et as [|x i y t' Hi Ht]; subst; cbn [map]; constructor; [|apply IH; exact Ht].
  cbn [fst snd] in Hi. destruct (pre_part talker ln) as [pre|] eqn:Ep; [|discriminate]. cbn [bind] in Hi. exists c, pre, i. auto.
Qed.
Lemma Forall2_occurs (A B : Type) (P : A -> Prop) (Q Q' : A -> B -> Prop) l r : Forall P l -> Forall2 Q l r -> (forall a b, P a -> Q a b -> Q' a b) -> Forall2 Q' l r.
Proof. intros HP H HQ. induction H; inversion HP; subst; constructor; auto. Qed.

(** ** Date before the talker, clock after it *)
Theorem C97_Atlantis : forall talker allnav ts, navdate_Atlantis allnav talker = Ok ts ->
  exists sub, selected (occurs talker) allnav sub /\ Forall2 (written (first_text nav_text) talker) sub ts.
Proof.
  intros talker allnav ts H. exists (talker_lines talker allnav). split; [apply selected_talker_lines|].
  apply dated_inv in H. eapply Forall2_occurs; [apply talker_occurs|exact H|]. intros ln t Ho [c [pre [i [Hc [Hp [Hf ->]]]]]].
  destruct c as [[[h mi] s] us]. destruct (search (pmatch pat_Atlantis) pre) as [[g r]|] eqn:Es; [|discriminate]. cbn [bind fst] in Hf.
  destruct (dt_us_inv _ _ _ _ _ _ _ _ Hf) as [By [Bd [Bh [Bm [Bs [Bu Hi]]]]]].
  destruct (clock_line_written _ _ _ _ _ _ Ho Hc) as [pre' [fields [Hs Hw]]].
  exists pre, pre', fields, (zth (ints g) 0, zth (ints g) 1, zth (ints g) 2), h, mi, s, us, i.
  split; [apply pre_part_before; assumption|]. split; [|repeat (split; [assumption|]); reflexivity].
  eapply search_first; [exact Atlantis_some|exact Es|]. intros v Hv. exact (Atlantis_inv _ _ _ Hv).
Qed.
Print Assumptions C97_Atlantis.

Theorem C97_NBP : forall talker allnav ts, navdate_NBP allnav talker = Ok ts ->
  exists sub, selected (occurs talker) allnav sub /\ Forall2 (written doy_date talker) sub ts.
Proof.
  intros talker allnav ts H. exists (talker_lines talker allnav). split; [apply selected_talker_lines|].
  apply dated_inv in H. eapply Forall2_occurs; [apply talker_occurs|exact H|]. intros ln t Ho [c [pre [i [Hc [Hp [Hf ->]]]]]].
  destruct c as [[[h mi] s] us]. destruct (search match_NBP pre) as [[g r]|] eqn:Es; [|discriminate]. cbn [bind fst] in Hf.
  destruct (doy_us_inv _ _ _ _ _ _ _ Hf) as [d [By [Bj [Hj [Bd [Bh [Bm [Bs [Bu Hi]]]]]]]]].
  destruct (clock_line_written _ _ _ _ _ _ Ho Hc) as [pre' [fields [Hs Hw]]].
  exists pre, pre', fields, d, h, mi, s, us, i.
  split; [apply pre_part_before; assumption|]. split; [|repeat (split; [assumption|]); reflexivity].
  exists (zth (ints g) 0), (zth (ints g) 1). split; [|split; assumption].
  eapply search_first; [exact NBP_some|exact Es|]. intros v Hv. exact (NBP_inv _ _ _ Hv).
Qed.
Print Assumptions C97_NBP.

Theorem C97_Thompson : forall talker allnav ts, navdate_Thompson allnav talker = Ok ts ->
  exists sub, selected (occurs talker) allnav sub /\ Forall2 (written_seconds (first_text us_text) talker) sub ts.
Proof.
  intros talker allnav ts H. exists (talker_lines talker allnav). split; [apply selected_talker_lines|].
  apply dated_inv in H. eapply Forall2_occurs; [apply talker_occurs|exact H|]. intros ln t Ho [c [pre [i [Hc [Hp [Hf ->]]]]]].
  destruct c as [[[h mi] s] us]. destruct (search (pmatch pat_Thompson) pre) as [[g r]|] eqn:Es; [|discriminate]. cbn [bind fst] in Hf.
  destruct (dt_us_inv _ _ _ _ _ _ _ _ Hf) as [By [Bd [Bh [Bm [Bs [_ Hi]]]]]].
  destruct (clock_line_written _ _ _ _ _ _ Ho Hc) as [pre' [fields [Hs Hw]]].
  exists pre, pre', fields, (zth (ints g) 2, zth (ints g) 0, zth (ints g) 1), h, mi, s, us, i.
  split; [apply pre_part_before; assumption|]. split; [|repeat (split; [assumption|]); reflexivity].
  eapply search_first; [exact Thompson_some|exact Es|]. intros v Hv. exact (Thompson_inv _ _ _ Hv).
Qed.
Print Assumptions C97_Thompson.

(** ** Date on an earlier line *)
Lemma layout_exists talker allnav : exists blocks tail, allnav = revelle_text blocks tail /\ revelle_layout talker blocks tail.
Proof.
  induction allnav as [|l allnav [blocks [tail [-> [Hb Ht]]]]]; [exists [], []; split; [reflexivity|split; constructor]|].
  destruct (containsb talker l) eqn:E.
  - apply containsb_spec in E. exists (([], l) :: blocks), tail. split; [reflexivity|]. split; [|exact Ht]. constructor; [split; [constructor|exact E]|exact Hb].
  - apply containsb_false in E. destruct blocks as [|[b ln] blocks].
    + exists [], (l :: tail). split; [reflexivity|]. split; [constructor|constructor; assumption].
    + exists ((l :: b, ln) :: blocks), tail. split; [reflexivity|]. inversion Hb as [|x y [H1 H2] H3]; subst. cbn [fst snd] in *.
      split; [|exact Ht]. constructor; [|exact H3]. split; [constructor; assumption|exact H2].
Qed.

Lemma undated_none l : pmatch pat_Revelle l = None -> undated l.
Proof. intros H y m d Hd. destruct (Revelle_dated l y m d Hd) as [r E]. congruence. Qed.
Lemma dated_some l g r : pmatch pat_Revelle l = Some (g, r) -> dated_line l (zth (ints g) 0) (zth (ints g) 1) (zth (ints g) 2).
Proof.
  unfold pat_Revelle. intros E. peel E y s2 By. peel_lit E s3. peel E m s4 Bm. peel_lit E s5.
  rewrite <- (app_nil_r [PDig 2]) in E. peel E d s6 Bd. rewrite !zthS, !zth0, !pad_val_small by assumption.
  exists s6. split; [reflexivity|]. split; [exact By|]. split; [exact Bm|exact Bd].
Qed.
Lemma back_inv h mi s us t : forall block, revelle_back (rev block) (h, mi, s, us) = Ok t ->
  (exists y m d i, last_dated block (y, m, d) /\ 1 <= y <= 9999 /\ valid_date (y, m, d) /\ 0 <= h < 24 /\ 0 <= mi < 60 /\ 0 <= s < 60 /\ 0 <= us < 1000000 /\
     instant (y, m, d) h mi s us i /\ t = Some i) \/ (Forall undated block /\ t = None).
Proof.
  induction block as [|l block IH] using rev_ind; [intros H; right; split; [constructor|cbn in H; congruence]|].
  rewrite rev_app_distr. cbn [rev app revelle_back]. destruct (pmatch pat_Revelle l) as [[g r]|] eqn:E; cbn [fst].
  - intros H. left. destruct (dt_us _ _ _ _ _ _ _) as [i|] eqn:Ed; [|discriminate]. cbn [bind] in H.
    destruct (dt_us_inv _ _ _ _ _ _ _ _ Ed) as [By [Bd [Bh [Bm [Bs [Bu Hi]]]]]].
    exists (zth (ints g) 0), (zth (ints g) 1), (zth (ints g) 2), i. split; [|repeat (split; [assumption|]); congruence].
    exists block, l, []. split; [reflexivity|]. split; [exact (dated_some _ _ _ E)|constructor].
  - intros H. apply undated_none in E. destruct (IH H) as [[y [m [d [i [[b1 [l' [b2 [-> [Hl Hb]]]]] Hr]]]]]|[Hb ->]].
    + left. exists y, m, d, i. split; [|exact Hr]. exists b1, l', (b2 ++ [l]). split; [rewrite <- app_assoc; reflexivity|]. split; [exact Hl|].
      apply Forall_app. split; [exact Hb|constructor; [exact E|constructor]].
    + right. split; [|reflexivity]. apply Forall_app. split; [exact Hb|constructor; [exact E|constructor]].
Qed.

Theorem C97_Revelle : forall talker allnav ts, navdate_Revelle allnav talker = Ok ts ->
  exists blocks tail, allnav = revelle_text blocks tail /\ revelle_layout talker blocks tail /\ Forall2 (written_block talker) blocks ts.
Proof.
  intros talker allnav ts H. destruct (layout_exists talker allnav) as [blocks [tail [E Hl]]]. exists blocks, tail. split; [exact E|]. split; [exact Hl|].
  unfold navdate_Revelle, clock_time in H. subst allnav. rewrite (talker_lines_selected _ _ _ (revelle_selected _ _ _ Hl)) in H.
  destruct (mapM (clock_line talker) (map snd blocks)) as [cs|] eqn:Ec; [|discriminate]. cbn [bind] in H.
  pose proof (mapM_length _ _ _ _ _ Ec) as Lc. rewrite map_length in Lc.
  pose proof (revelle_blocks talker blocks tail Hl (revelle_text blocks tail) [] cs Lc eq_refl) as R. cbv zeta in R.
  change (inds_at talker (revelle_text blocks tail) (len (@nil str)) (len (revelle_text blocks tail))) with (talker_inds talker (revelle_text blocks tail)) in R.
  cbn [List.length] in R. rewrite R in H. clear R. apply mapM_Forall2_inv in Ec. apply mapM_Forall2_inv in H.
  assert (Ho : Forall (fun b => occurs talker (snd b)) blocks) by (eapply Forall_impl; [|exact (proj1 Hl)]; intros b [_ Hb]; exact Hb).
  clear Hl Lc. revert cs ts Ec H. induction Ho as [|b blocks Hb _ IH]; intros cs ts Ec H; cbn [map] in Ec; inversion Ec as [|x c y cs' Hc Hcs]; subst; cbn [combine] in H;
    inversion H as [|x' t y' ts' Ht Hts]; subst; constructor.
  - cbn [fst snd] in Ht. destruct c as [[[h mi] s] us]. destruct (clock_line_written _ _ _ _ _ _ Hb Hc) as [pre [fields [Hs Hw]]].
    exists pre, fields, h, mi, s, us. split; [exact Hs|]. split; [exact Hw|]. apply back_inv. exact Ht.
  - apply (IH cs' ts'); assumption.
Qed.
Print Assumptions C97_Revelle.

(** ** Stamps of whole lines *)
Theorem C97_Langseth : forall talker allnav ts, navdate_Langseth allnav talker = Ok ts ->
  exists sub, selected (occurs talker) allnav sub /\ Forall2 (written_seapath talker) sub ts.
Proof.
  intros talker allnav ts H. exists (talker_lines talker allnav). split; [apply selected_talker_lines|]. unfold navdate_Langseth in H.
  destruct (mapM _ (talker_lines talker allnav)) as [t|] eqn:Et; [|discriminate]. cbn [bind] in H. assert (E : ts = map Some t) by congruence. subst ts. clear H.
  apply mapM_Forall2_inv in Et.
  assert (G : Forall2 (fun ln i => written_seapath talker ln (Some i)) (talker_lines talker allnav) t).
  { eapply Forall2_occurs; [apply talker_occurs|exact Et|]. intros ln i Ho H. cbv beta in H.
    destruct (pre_part talker ln) as [pre|] eqn:Ep; [|discriminate]. cbn [bind] in H.
    destruct (getr (split (lit "seapath") pre) 1) as [sea|] eqn:E1; [|discriminate]. cbn [bind] in H. apply getr_inv in E1.
    destruct (getr (split [tab] sea) 1) as [date|] eqn:E2; [|discriminate]. cbn [bind] in H. apply getr_inv in E2.
    pose proof (split_pieces (lit "seapath") pre ltac:(discriminate)) as P1. pose proof (split_fields tab sea) as P2.
    destruct (split (lit "seapath") pre) as [|a [|sea' more]]; try discriminate. cbn [nth_error] in E1. assert (sea' = sea) by congruence. subst sea'.
    destruct (split [tab] sea) as [|x [|date' rest]]; try discriminate. cbn [nth_error] in E2. assert (date' = date) by congruence. subst date'.
    unfold strptime_Langseth in H.
    destruct (directive 4 4 (lit ":") date) as [[y r1]|] eqn:D1; [|discriminate]. cbn [bind fst snd] in H.
    destruct (directive 1 3 (lit ":") r1) as [[j r2]|] eqn:D2; [|discriminate]. cbn [bind fst snd] in H.
    destruct (directive 1 2 (lit ":") r2) as [[h r3]|] eqn:D3; [|discriminate]. cbn [bind fst snd] in H.
    destruct (directive 1 2 (lit ":") r3) as [[mi r4]|] eqn:D4; [|discriminate]. cbn [bind fst snd] in H.
    destruct (directive 1 2 (lit ".") r4) as [[sc r5]|] eqn:D5; [|discriminate]. cbn [bind fst snd] in H.
    destruct (directive 1 6 [] r5) as [[f r6]|] eqn:D6; [|discriminate]. cbn [bind fst snd] in H.
    destruct r6 as [|? ?]; [|discriminate].
    apply directive_inv in D1, D2, D3, D4, D5, D6. destruct D1 as [T1 [L1 B1]], D2 as [T2 [L2 B2]], D3 as [T3 [L3 B3]], D4 as [T4 [L4 B4]], D5 as [T5 [L5 B5]], D6 as [T6 [L6 B6]].
    destruct (doy_us_inv _ _ _ _ _ _ _ H) as [d [By [Bj [Hj [Bd [Bh [Bm [Bs [Bu Hi]]]]]]]]].
    exists pre, a, sea, more, x, rest, (digits_val y), (len j), (digits_val j), (len h), (digits_val h), (len mi), (digits_val mi), (len sc), (digits_val sc), (len f), (digits_val f), d, i.
    split; [apply pre_part_before; assumption|]. split; [exact P1|].
    assert (Ey : len y = 4%nat) by lia. rewrite Ey in T1. cbn [app] in T6. rewrite app_nil_r in T6.
    split; [rewrite <- T6, <- T5, <- T4, <- T3, <- T2, <- T1; exact P2|].
    repeat (split; [assumption|]). reflexivity. }
  clear Et. induction G; cbn [map]; constructor; assumption.
Qed.
Print Assumptions C97_Langseth.

Lemma ride_inv allnav talker l : navdate_Ride allnav talker = Ok (Stamps l) ->
  Forall2 (fun ln t => ride_line talker ln = Ok t) (talker_lines talker allnav) l.
Proof.
  unfold navdate_Ride. destruct (talker_lines talker allnav) as [|x sub]; [discriminate|]. intros H.
  destruct (mapM (ride_line talker) (x :: sub)) as [t|] eqn:E; [|discriminate]. cbn [bind] in H. assert (t = l) by congruence. subst t. apply mapM_Forall2_inv. exact E.
Qed.

Theorem C97_Ride_posix : forall allnav ts, navdate_Ride allnav (lit "INGGA") = Ok (Stamps ts) ->
  exists sub, selected (occurs (lit "INGGA")) allnav sub /\ Forall2 written_posix sub ts.
Proof.
  intros allnav ts H. exists (talker_lines (lit "INGGA") allnav). split; [apply selected_talker_lines|]. apply ride_inv in H.
  eapply Forall2_occurs; [apply talker_occurs|exact H|]. intros ln t _ Hl. cbv beta in Hl. unfold ride_line in Hl.
  change (str_eqb (lit "INGGA") (lit "INGGA")) with true in Hl. cbv iota in Hl.
  destruct (search match_posix ln) as [[m k]|] eqn:Es; [|discriminate]. cbn [bind fst snd] in Hl.
  destruct (from_posix m k) as [i|] eqn:Ef; [|discriminate]. cbn [bind] in Hl.
  exists (inject_Z m / inject_Z (10 ^ k))%Q, i. split; [|split; [|congruence]].
  - eapply search_first; [exact posix_some|exact Es|]. intros v Hv. exact (posix_inv _ _ _ Hv).
  - apply from_posix_near; [|exact Ef]. destruct (search_inv _ _ _ _ Es) as [u [v [_ [Hv _]]]]. unfold match_posix in Hv.
    destruct (span is_digit v) as [[|c0 i0] r]; [discriminate|]. destruct (match r with [] => _ | _ => _ end) as [f r']. destruct (prefixb _ r'); [|discriminate].
    assert (k = Z.of_nat (len f)) by congruence. lia.
Qed.
Print Assumptions C97_Ride_posix.

Theorem C97_Ride_iso : forall allnav ts, navdate_Ride allnav (lit "GPGGA") = Ok (Stamps ts) ->
  exists sub, selected (occurs (lit "GPGGA")) allnav sub /\ Forall2 written_iso sub ts.
Proof.
  intros allnav ts H. exists (talker_lines (lit "GPGGA") allnav). split; [apply selected_talker_lines|]. apply ride_inv in H.
  eapply Forall2_occurs; [apply talker_occurs|exact H|]. intros ln t _ Hl. cbv beta in Hl. unfold ride_line in Hl.
  change (str_eqb (lit "GPGGA") (lit "INGGA")) with false in Hl. change (str_eqb (lit "GPGGA") (lit "GPGGA")) with true in Hl. cbv iota in Hl.
  destruct (search match_iso ln) as [[g f]|] eqn:Es; [|discriminate]. cbn [bind fst snd] in Hl.
  destruct (iso_micro f) as [us|] eqn:Em; [|discriminate]. cbn [bind] in Hl.
  destruct (dt_us _ _ _ _ _ _ _) as [i|] eqn:Ed; [|discriminate]. cbn [bind] in Hl.
  destruct (iso_micro_floor _ _ Em) as [q [Hq Hu]]. destruct (dt_us_inv _ _ _ _ _ _ _ _ Ed) as [By [Bd [Bh [Bm [Bs [Bu Hi]]]]]].
  exists (zth (ints g) 0, zth (ints g) 1, zth (ints g) 2), (zth (ints g) 3), (zth (ints g) 4), (zth (ints g) 5), f, q, us, i.
  split; [|repeat (split; [assumption|]); congruence].
  eapply search_first; [exact iso_some|exact Es|]. intros v Hv. exact (iso_inv _ _ _ Hv).
Qed.
Print Assumptions C97_Ride_iso.

(** ** Positions *)
Lemma nav_coord_written post lon lat : nav_coord post = Ok (lon, lat) ->
  (no_position post /\ lon = None /\ lat = None) \/
  (exists clock la ns lo ew rest, post = clock :: la :: ns :: lo :: ew :: rest /\ la <> [] /\ lo <> [] /\
     exists south west, (south = true <-> ns = lit "S") /\ (west = true <-> ew = lit "W") /\ degrees_written 2 la south lat /\ degrees_written 3 lo west lon).
Proof.
  unfold nav_coord. intros H. destruct (getr post 1) as [la|] eqn:E1; [|discriminate]. cbn [bind] in H. apply getr_inv in E1.
  destruct post as [|clock [|la' post]]; try discriminate. cbn [nth_error] in E1. assert (la' = la) by congruence. subst la'.
  destruct (str_eqb la []) eqn:Ela; cbn [bind] in H.
  { apply str_eqb_eq in Ela. left. split; [left; exists clock, post; rewrite Ela; reflexivity|]. split; congruence. }
  apply str_eqb_neq in Ela. destruct (getr (clock :: la :: post) 3) as [lo|] eqn:E3; [|discriminate]. cbn [bind] in H. pose proof (getr_inv _ _ _ _ E3) as E3'.
  destruct post as [|ns [|lo' post]]; try discriminate. cbn [nth_error] in E3'. assert (lo' = lo) by congruence. subst lo'.
  destruct (str_eqb lo []) eqn:Elo.
  { apply str_eqb_eq in Elo. left. split; [right; exists clock, la, ns, post; rewrite Elo; reflexivity|]. split; congruence. }
  apply str_eqb_neq in Elo. right.
  destruct (py_int (firstn 2 la)) as [latd|] eqn:I1; [|discriminate]. cbn [bind] in H.
  destruct (py_float (skipn 2 la)) as [latm|] eqn:F1; [|discriminate]. cbn [bind] in H. change (getr (clock :: la :: ns :: lo :: post) 2) with (Ok ns) in H. cbn [bind] in H.
  destruct (py_int (firstn 3 lo)) as [lond|] eqn:I2; [|discriminate]. cbn [bind] in H.
  destruct (py_float (skipn 3 lo)) as [lonm|] eqn:F2; [|discriminate]. cbn [bind] in H.
  destruct post as [|ew rest]; [discriminate|]. change (getr (clock :: la :: ns :: lo :: ew :: rest) 4) with (Ok ew) in H. cbn [bind] in H.
  exists clock, la, ns, lo, ew, rest. split; [reflexivity|]. split; [exact Ela|]. split; [exact Elo|].
  exists (str_eqb ns (lit "S")), (str_eqb ew (lit "W")). split; [apply str_eqb_eq|]. split; [apply str_eqb_eq|].
  assert (Hlat : lat = degmin latd latm (str_eqb ns (lit "S"))) by congruence. assert (Hlon : lon = degmin lond lonm (str_eqb ew (lit "W"))) by congruence. subst.
  split; apply degmin_written; try assumption; eapply float_length; eassumption.
Qed.

Theorem C97_positions : forall talker allnav lons lats, navcoords allnav talker = Ok (lons, lats) ->
  exists sub rows, selected (occurs talker) allnav sub /\ lons = map fst rows /\ lats = map snd rows /\
    Forall2 (fun ln r => position_written talker ln (fst r) (snd r)) sub rows.
Proof.
  intros talker allnav lons lats H. unfold navcoords in H. destruct (mapM _ (talker_lines talker allnav)) as [rows|] eqn:E; [|discriminate]. cbn [bind] in H.
  exists (talker_lines talker allnav), rows. split; [apply selected_talker_lines|]. split; [congruence|]. split; [congruence|].
  apply mapM_Forall2_inv in E. eapply Forall2_occurs; [apply talker_occurs|exact E|]. intros ln [lon lat] Ho Hl. cbv beta in Hl. cbn [fst snd].
  destruct (post_fields talker ln) as [fields|] eqn:Ef; [|discriminate]. cbn [bind] in Hl.
  assert (Hn : fields <> []) by (intros ->; discriminate). destruct (post_fields_sentence _ _ _ Ho Ef Hn) as [pre Hp].
  exists pre, fields. split; [exact Hp|]. apply nav_coord_written. exact Hl.
Qed.
Print Assumptions C97_positions.

(** ** Cases *)
(** a clock that is not written with two digits each is read, and stands for 07:05:10 *)
Example C97_Atlantis_case : exists i, instant (2024, 2, 29) 7 5 10 0 i /\
  navdate_Atlantis [lit "NAV 24/02 NAV 2024/02/29 $GPGGA,+7 51e1,"] gp = Ok [Some i] /\
  written (first_text nav_text) gp (lit "NAV 24/02 NAV 2024/02/29 $GPGGA,+7 51e1,") (Some i).
Proof.
  exists (local_us (mk_datetime 2024 2 29 7 5 10 0 (Some 0))). split; [apply instant_local; apply valid_dec; reflexivity|].
  assert (E : navdate_Atlantis [lit "NAV 24/02 NAV 2024/02/29 $GPGGA,+7 51e1,"] gp = Ok [Some (local_us (mk_datetime 2024 2 29 7 5 10 0 (Some 0)))]) by (vm_compute; reflexivity).
  split; [exact E|]. apply C97_Atlantis in E. destruct E as [sub [Hs H]].
  inversion Hs as [|a l l' H1 H2|a l l' H1 H2]; subst; [inversion H; subst; assumption|].
  exfalso. apply H1. apply containsb_spec. reflexivity.
Qed.
(** of the two dates the first counts *)
Example C97_Thompson_case : exists i, instant (2023, 6, 12) 10 15 30 0 i /\
  navdate_Thompson [lit "06/12/2023,06/13/2023 $GPGGA,101530.999,"; lit "nothing"] gp = Ok [Some i].
Proof. exists (local_us (mk_datetime 2023 6 12 10 15 30 0 (Some 0))). split; [apply instant_local; apply valid_dec; reflexivity|vm_compute; reflexivity]. Qed.
Example C97_NBP_case : exists i, instant (2023, 12, 31) 10 15 30 250000 i /\ navdate_NBP [lit "1+1: 23+365: $GPGGA,101530.25,"] gp = Ok [Some i].
Proof. exists (local_us (mk_datetime 2023 12 31 10 15 30 250000 (Some 0))). split; [apply instant_local; apply valid_dec; reflexivity|vm_compute; reflexivity]. Qed.
(** a block without a date has no time *)
Example C97_Revelle_case : exists i, instant (2023, 6, 12) 10 15 30 250000 i /\
  navdate_Revelle [lit "2023-06-11"; lit "2023-06-12 x"; lit "y"; lit "$GPGGA,101530.25,"; lit "z"; lit "$GPGGA,101531.25,"; lit "2023-06-13"] gp = Ok [Some i; None].
Proof. exists (local_us (mk_datetime 2023 6 12 10 15 30 250000 (Some 0))). split; [apply instant_local; apply valid_dec; reflexivity|vm_compute; reflexivity]. Qed.
(** a year of five digits is refused, an hour of one digit is read *)
Example C97_Langseth_case : let line y := lit "seapath" ++ [tab] ++ lit y ++ lit ":60:1:2:3.5" ++ [tab] ++ lit "$INGGA" in
  (exists i, instant (2024, 2, 29) 1 2 3 500000 i /\ navdate_Langseth [line "2024"%string] inn = Ok [Some i]) /\ navdate_Langseth [line "02024"%string] inn = Raise ValueError.
Proof.
  split; [|vm_compute; reflexivity].
  exists (local_us (mk_datetime 2024 2 29 1 2 3 500000 (Some 0))). split; [apply instant_local; apply valid_dec; reflexivity|vm_compute; reflexivity].
Qed.
Example C97_Ride_case : navdate_Ride [lit "x1.0000005 $INGGA,"; lit "y 12. $INGGA"] (lit "INGGA") = Ok (Stamps [Some 1000000; Some 12000000]) /\
  (exists i, instant (2023, 6, 12) 10 15 30 123456 i /\ navdate_Ride [lit "2023-06-12T10:15:30.1234567Z $GPGGA"] (lit "GPGGA") = Ok (Stamps [Some i])).
Proof.
  split; [vm_compute; reflexivity|].
  exists (local_us (mk_datetime 2023 6 12 10 15 30 123456 (Some 0))). split; [apply instant_local; apply valid_dec; reflexivity|vm_compute; reflexivity].
Qed.
(** "4112" is 41 degrees 12; minutes "nan" give no latitude *)
Example C97_positions_case : navcoords [lit "$GPGGA,1,4112,N,0700030.e-1,W"; lit "$GPGGA,1,41nan,N,07030,"] gp =
  Ok ([Some (- (70 + 3 / 60)); Some (70 + 30 / 60)], [Some (41 + 12 / 60); None])%R.
Proof.
  assert (E : navcoords [lit "$GPGGA,1,4112,N,0700030.e-1,W"; lit "$GPGGA,1,41nan,N,07030,"] gp =
    Ok ([degmin 70 (FDec 30 (-1)) true; degmin 70 (FDec 30 0) false], [degmin 41 (FDec 12 0) false; degmin 41 FNan false])) by reflexivity.
  rewrite E. unfold degmin. cbn [fval_R option_map].
  replace (powerRZ 10 (-1)) with (/ 10)%R by (change (powerRZ 10 (-1)) with (/ (10 * 1))%R; field). replace (powerRZ 10 0) with 1%R by reflexivity.
  replace (- (IZR 70 + IZR 30 * / 10 / 60))%R with (- (70 + 3 / 60))%R by lra. replace (IZR 70 + IZR 30 * 1 / 60)%R with (70 + 30 / 60)%R by lra.
  replace (IZR 41 + IZR 12 * 1 / 60)%R with (41 + 12 / 60)%R by lra. reflexivity.
Qed.
