(** Proofs for the interactive picker. *)
From Coq Require Import List ZArith Reals Lia Lra Bool.
From Verif Require Import M_Py L_Base M_Cursor S_Cursor.
Import ListNotations.
Open Scope R_scope.

(** ** argmin *)
Lemma argmin_loop_spec : forall l pre best bv,
  (best < length pre)%nat -> nth best pre 0 = bv ->
  (forall j, (j < length pre)%nat -> bv <= nth j pre 0) ->
  (forall j, (j < best)%nat -> bv < nth j pre 0) ->
  let r := argmin_loop l (length pre) best bv in
  let all := pre ++ l in
  (r < length all)%nat /\
  (forall j, (j < length all)%nat -> nth r all 0 <= nth j all 0) /\
  (forall j, (j < r)%nat -> nth r all 0 < nth j all 0).
Proof.
  induction l as [|a l IH]; intros pre best bv Hb Hv Hmin Hfirst r all.
  - subst r all. simpl. rewrite app_nil_r. rewrite Hv.
    split; [exact Hb|]. split; assumption.
  - subst r all. cbn [argmin_loop].
    assert (E : pre ++ a :: l = (pre ++ [a]) ++ l) by (rewrite <- app_assoc; reflexivity).
    assert (Hl : S (length pre) = length (pre ++ [a])) by (rewrite app_length; simpl; lia).
    destruct (Rlt_dec a bv) as [Hlt|Hge].
    + rewrite E, Hl. apply IH.
      * rewrite app_length; simpl; lia.
      * rewrite app_nth2 by lia. rewrite Nat.sub_diag. reflexivity.
      * intros j Hj. rewrite app_length in Hj. simpl in Hj.
        destruct (lt_dec j (length pre)) as [Hj'|Hj'].
        -- rewrite app_nth1 by exact Hj'. specialize (Hmin j Hj'). lra.
        -- rewrite app_nth2 by lia. replace (j - length pre)%nat with O by lia. simpl. lra.
      * intros j Hj. rewrite app_nth1 by exact Hj. specialize (Hmin j Hj). lra.
    + rewrite E, Hl. apply IH.
      * rewrite app_length; simpl; lia.
      * rewrite app_nth1 by exact Hb. exact Hv.
      * intros j Hj. rewrite app_length in Hj. simpl in Hj.
        destruct (lt_dec j (length pre)) as [Hj'|Hj'].
        -- rewrite app_nth1 by exact Hj'. apply Hmin. exact Hj'.
        -- rewrite app_nth2 by lia. replace (j - length pre)%nat with O by lia. simpl. lra.
      * intros j Hj. rewrite app_nth1 by lia. apply Hfirst. exact Hj.
Qed.

Lemma argmin_spec l i : argmin l = Ok i ->
  (i < length l)%nat /\
  (forall j, (j < length l)%nat -> nth i l 0 <= nth j l 0) /\
  (forall j, (j < i)%nat -> nth i l 0 < nth j l 0).
Proof.
  destruct l as [|a l]; intros H; [discriminate|]. simpl in H. injection H as <-.
  apply (argmin_loop_spec l [a] 0 a); simpl.
  - lia.
  - reflexivity.
  - intros j Hj. replace j with O by lia. lra.
  - intros j Hj. lia.
Qed.

Lemma argmin_ok l : l <> [] -> exists i, argmin l = Ok i.
Proof. destruct l as [|a l]; [congruence|]. intros _. eexists. reflexivity. Qed.

Lemma nearest_row_spec d x i : nearest_row d x = Ok i -> nearest d x i.
Proof.
  unfold nearest_row. intros H. apply argmin_spec in H. rewrite map_length in H.
  destruct H as [Hi [H1 H2]]. unfold nearest.
  destruct (nth_error d i) as [r|] eqn:E; [|apply nth_error_None in E; lia].
  exists r. split; [reflexivity|].
  assert (Hn : forall j r', nth_error d j = Some r' ->
    nth j (map (fun r => Rabs (x - tsec r)) d) 0 = Rabs (x - tsec r')).
  { intros j r' Hj. apply nth_error_nth.
    rewrite (map_nth_error (fun r => Rabs (x - tsec r)) j d Hj). reflexivity. }
  split.
  - intros j r' Hj. rewrite <- (Hn i r E), <- (Hn j r' Hj). apply H1.
    apply nth_error_Some. congruence.
  - intros j r' Hlt Hj. rewrite <- (Hn i r E), <- (Hn j r' Hj). apply H2. exact Hlt.
Qed.

Lemma nearest_unique d x i i' : nearest d x i -> nearest d x i' -> i = i'.
Proof.
  intros [r [E [H1 H2]]] [r' [E' [H1' H2']]].
  destruct (lt_eq_lt_dec i i') as [[Hlt|]|Hgt]; [exfalso|assumption|exfalso].
  - specialize (H1 i' r' E'). specialize (H2' i r Hlt E). lra.
  - specialize (H1' i r E). specialize (H2 i' r' Hgt E'). lra.
Qed.

Lemma nearest_row_ok d x : d <> [] -> exists i r, nearest_row d x = Ok i /\ nth_error d i = Some r.
Proof.
  intros H. unfold nearest_row. destruct (argmin_ok (map (fun r => Rabs (x - tsec r)) d)) as [i Hi].
  { destruct d; [congruence|discriminate]. }
  pose proof (argmin_spec _ _ Hi) as [Hl _]. rewrite map_length in Hl.
  destruct (nth_error d i) as [r|] eqn:E; [|apply nth_error_None in E; lia].
  exists i, r. split; [exact Hi|exact E].
Qed.

(** ** the pick lists *)
Definition lonlat (d : list row) (i : nat) : R * R :=
  match nth_error d i with Some r => (lon_new r, lat_new r) | None => (0, 0) end.

Definition picks_inv (d : list row) (s : state) (st : list nat) : Prop :=
  i_seg s = st /\ x_seg s = map (fun i => fst (lonlat d i)) st /\
  y_seg s = map (fun i => snd (lonlat d i)) st /\ scat s = (x_seg s, y_seg s) /\
  Forall (fun i => (i < length d)%nat) st.

Lemma move_keeps_picks e s ia xd :
  let s' := fst (on_mouse_move e s ia xd) in
  i_seg s' = i_seg s /\ x_seg s' = x_seg s /\ y_seg s' = y_seg s /\ scat s' = scat s.
Proof.
  unfold on_mouse_move. destruct ia; cbn [negb]; [|simpl; auto].
  cbn [last_index set_cross_hair_visible].
  destruct (last_index s) as [li|].
  - destruct (_ =? li)%Z; [simpl; auto|].
    destruct (pyget _ _) as [[x y]|]; [|simpl; auto].
    destruct (nearest_row _ _); [|simpl; auto].
    destruct (nth_error _ _); simpl; auto.
  - destruct (pyget _ _) as [[x y]|]; [|simpl; auto].
    destruct (nearest_row _ _); [|simpl; auto].
    destruct (nth_error _ _); simpl; auto.
Qed.

Lemma pop_last A (l : list A) a : pop (l ++ [a]) = Some l.
Proof.
  unfold pop. rewrite removelast_last. destruct (l ++ [a]) eqn:E; [|reflexivity].
  apply app_eq_nil in E. destruct E; discriminate.
Qed.

Lemma step_picks e s evs st ev : data e <> [] ->
  picks (data e) evs st -> picks_inv (data e) s st ->
  exists st', picks (data e) (evs ++ [ev]) st' /\ picks_inv (data e) (fst (step e s ev)) st'.
Proof.
  intros Hd Hp [H1 [H2 [H3 [H4 H5]]]]. destruct ev as [ia xd|b xd].
  - exists st. split; [constructor; exact Hp|].
    destruct (move_keeps_picks e s ia xd) as [K1 [K2 [K3 K4]]].
    unfold step, picks_inv. rewrite K1, K2, K3, K4. auto.
  - unfold step, on_mouse_click. destruct (Z.eqb_spec b 1) as [->|Hb1].
    + destruct xd as [x|].
      * unfold left_click. destruct (nearest_row_ok (data e) x Hd) as [i [r [Hn Hr]]].
        rewrite Hn, Hr. exists (st ++ [i]). split.
        -- constructor; [exact Hp|]. apply nearest_row_spec. exact Hn.
        -- unfold picks_inv. cbn [fst i_seg x_seg y_seg scat].
           rewrite H1, H2, H3, !map_app. cbn [map]. assert (Hll : lonlat (data e) i = (lon_new r, lat_new r)) by (unfold lonlat; rewrite Hr; reflexivity).
           rewrite Hll.
           repeat split; try reflexivity.
           apply Forall_app. split; [exact H5|]. constructor; [|constructor].
           apply nth_error_Some. congruence.
      * exists st. split; [constructor; exact Hp|]. simpl. unfold picks_inv. auto.
    + destruct (Z.eqb_spec b 3) as [->|Hb3].
      * unfold right_click. destruct st as [|i0 st0] eqn:Est.
        -- exists []. split; [constructor; exact Hp|].
           cbn [map] in *. rewrite H2. cbn [pop fst]. unfold picks_inv. rewrite H4, H1, H2, H3. cbn [map]. auto.
        -- destruct (exists_last (l := st)) as [st1 [i1 E1]]; [congruence|].
           exists st1. split.
           ++ apply picks_right with (i := i1). rewrite <- E1, Est. exact Hp.
           ++ assert (Hx : pop (x_seg s) = Some (map (fun i => fst (lonlat (data e) i)) st1)).
              { rewrite H2, <- Est, E1, map_app. apply pop_last. }
              assert (Hy : pop (y_seg s) = Some (map (fun i => snd (lonlat (data e) i)) st1)).
              { rewrite H3, <- Est, E1, map_app. apply pop_last. }
              assert (Hi : pop (i_seg s) = Some st1).
              { rewrite H1, <- Est, E1. apply pop_last. }
              rewrite Hx. cbn [y_seg i_seg]. rewrite Hy. cbn [y_seg i_seg]. rewrite Hi.
              unfold picks_inv. cbn [fst i_seg x_seg y_seg scat].
              repeat split; try reflexivity.
              rewrite <- Est, E1 in H5. apply Forall_app in H5. apply H5.
      * exists st. split; [constructor; assumption|]. simpl. unfold picks_inv. auto.
Qed.

Lemma run_app e s l1 l2 : run e s (l1 ++ l2) = run e (run e s l1) l2.
Proof. unfold run. apply fold_left_app. Qed.

Lemma run_picks e minx maxy dot0 evs : data e <> [] ->
  exists st, picks (data e) evs st /\ picks_inv (data e) (run e (init minx maxy dot0) evs) st.
Proof.
  intros Hd. induction evs as [|ev evs IH] using rev_ind.
  - exists []. split; [constructor|]. simpl. unfold picks_inv. simpl. auto.
  - destruct IH as [st [Hp Hi]]. rewrite run_app.
    apply (step_picks e (run e (init minx maxy dot0) evs) evs st ev Hd Hp Hi).
Qed.

Lemma picks_inv_last d l st : picks d l st -> forall evs ev, l = evs ++ [ev] ->
  exists st0, picks d evs st0 /\
  match ev with
  | Move _ _ => st = st0
  | Click b xd =>
      if (b =? 1)%Z then match xd with Some x => exists i, nearest d x i /\ st = st0 ++ [i] | None => st = st0 end
      else if (b =? 3)%Z then (st0 = [] /\ st = []) \/ exists i, st0 = st ++ [i]
      else st = st0
  end.
Proof.
  intros H; destruct H; intros evs0 ev0 E;
    try (apply app_inj_tail in E; destruct E; subst).
  - destruct evs0; discriminate.
  - exists st. split; [assumption|]. simpl. exists i. auto.
  - exists st. split; [assumption|]. simpl. reflexivity.
  - exists (st ++ [i]). split; [assumption|]. simpl. right. exists i. reflexivity.
  - exists []. split; [assumption|]. simpl. auto.
  - exists st. split; [assumption|]. destruct (Z.eqb_spec b 1); [contradiction|].
    destruct (Z.eqb_spec b 3); [contradiction|reflexivity].
  - exists st. split; [assumption|]. reflexivity.
Qed.

Lemma picks_unique d evs : forall st st', picks d evs st -> picks d evs st' -> st = st'.
Proof.
  induction evs as [|ev evs IH] using rev_ind; intros st st' H H'.
  - assert (N : forall l st, picks d l st -> l = [] -> st = []).
    { intros l s K. destruct K; intros E; try (apply app_eq_nil in E; destruct E; discriminate).
      reflexivity. }
    rewrite (N _ _ H eq_refl), (N _ _ H' eq_refl). reflexivity.
  - destruct (picks_inv_last _ _ _ H evs ev eq_refl) as [s1 [P1 Q1]].
    destruct (picks_inv_last _ _ _ H' evs ev eq_refl) as [s2 [P2 Q2]].
    pose proof (IH _ _ P1 P2) as E. subst s2.
    destruct ev as [ia xd|b xd]; [congruence|].
    destruct (b =? 1)%Z.
    + destruct xd as [x|]; [|congruence].
      destruct Q1 as [i [N1 ->]], Q2 as [j [N2 ->]]. rewrite (nearest_unique _ _ _ _ N1 N2). reflexivity.
    + destruct (b =? 3)%Z; [|congruence].
      destruct Q1 as [[E1 ->]|[i E1]], Q2 as [[E2 ->]|[j E2]]; subst s1.
      * reflexivity.
      * symmetry in E2. apply app_eq_nil in E2. destruct E2; discriminate.
      * apply app_eq_nil in E2. destruct E2; discriminate.
      * apply app_inj_tail in E2. apply E2.
Qed.

(** ** the cross hair *)
Lemma searchsorted_spec xs v :
  (searchsorted xs v <= length xs)%nat /\
  (forall j, (j < searchsorted xs v)%nat -> nth j xs 0 < v) /\
  ((searchsorted xs v < length xs)%nat -> v <= nth (searchsorted xs v) xs 0).
Proof.
  induction xs as [|a xs [IH1 [IH2 IH3]]]; simpl.
  - split; [lia|]. split; [intros; lia|]. intros; lia.
  - destruct (Rlt_dec a v) as [H|H].
    + split; [lia|]. split.
      * intros [|j] Hj; [exact H|]. apply IH2. lia.
      * intros Hl. apply IH3. lia.
    + split; [lia|]. split; [intros; lia|]. intros _. lra.
Qed.

Definition snap_ix (l : list (R * R)) (xd : R) : Z :=
  Z.min (Z.of_nat (searchsorted (map fst l) xd)) (Z.of_nat (length l) - 1).

Lemma snap_ix_snapped l xd : l <> [] -> snapped l xd (Z.to_nat (snap_ix l xd)) /\ (0 <= snap_ix l xd)%Z.
Proof.
  intros Hl. destruct (searchsorted_spec (map fst l) xd) as [H1 [H2 H3]].
  rewrite map_length in *. unfold snap_ix. set (q := searchsorted (map fst l) xd) in *.
  assert (Hn : (0 < length l)%nat) by (destruct l; [congruence|simpl; lia]).
  split; [|lia]. unfold snapped. split; [lia|]. split.
  - intros j p Hj Hp. specialize (H2 j ltac:(lia)).
    rewrite (nth_error_nth (map fst l) j 0 (x := fst p)) in H2; [exact H2|].
    apply map_nth_error. exact Hp.
  - destruct (lt_dec q (length l)) as [Hq|Hq]; [|left; lia].
    right. replace (Z.to_nat (Z.min (Z.of_nat q) (Z.of_nat (length l) - 1))) with q by lia.
    destruct (nth_error l q) as [p|] eqn:E; [|apply nth_error_None in E; lia].
    exists p. split; [reflexivity|]. specialize (H3 Hq).
    rewrite (nth_error_nth (map fst l) q 0 (x := fst p)) in H3; [exact H3|].
    apply map_nth_error. exact E.
Qed.

(** cached index and drawn cross hair agree *)
Definition cross_at (e : env) (s : state) (k : nat) : Prop :=
  exists p, nth_error (line e) k = Some p /\ vline s = fst p /\ hline s = snd p /\
  exists i r, nearest (data e) (fst p) i /\ nth_error (data e) i = Some r /\
    dot s = (lon_new r, lat_new r).

Definition cross_inv (e : env) (s : state) : Prop :=
  match last_index s with
  | None => True
  | Some z => (0 <= z)%Z /\ cross_at e s (Z.to_nat z)
  end.

Lemma pyget_nonneg A (l : list A) z : (0 <= z)%Z -> pyget l z = getr l (Z.to_nat z).
Proof. intros H. unfold pyget. destruct (Z.ltb_spec z 0); [lia|reflexivity]. Qed.

Lemma move_in e s xd : data e <> [] -> line e <> [] -> cross_inv e s ->
  let s' := fst (on_mouse_move e s true xd) in
  hvis s' = true /\ vvis s' = true /\ last_index s' = Some (snap_ix (line e) xd) /\
  cross_inv e s' /\ snd (on_mouse_move e s true xd) = None.
Proof.
  intros Hd Hl Hinv.
  destruct (snap_ix_snapped (line e) xd Hl) as [[Hk _] Hnn].
  assert (Hget : exists p, nth_error (line e) (Z.to_nat (snap_ix (line e) xd)) = Some p).
  { destruct (nth_error _ _) eqn:E; [eexists; reflexivity|]. apply nth_error_None in E. lia. }
  destruct Hget as [p Hp].
  destruct (nearest_row_ok (data e) (fst p) Hd) as [i [r [Hn Hr]]].
  unfold on_mouse_move. cbn [negb]. fold (snap_ix (line e) xd).
  unfold cross_inv in Hinv. cbn [last_index set_cross_hair_visible].
  assert (Hg : pyget (line e) (snap_ix (line e) xd) = Ok p).
  { rewrite pyget_nonneg by exact Hnn. unfold getr. rewrite Hp. reflexivity. }
  assert (Fresh : forall s1 : state, last_index s1 = Some (snap_ix (line e) xd) ->
     vline s1 = fst p -> hline s1 = snd p -> dot s1 = (lon_new r, lat_new r) -> cross_inv e s1).
  { intros s1 E1 E2 E3 E4. unfold cross_inv. rewrite E1. split; [exact Hnn|].
    exists p. split; [exact Hp|]. split; [exact E2|]. split; [exact E3|].
    exists i, r. split; [apply nearest_row_spec; exact Hn|]. split; assumption. }
  destruct (last_index s) as [li|] eqn:El.
  - destruct (Z.eqb_spec (snap_ix (line e) xd) li) as [E|Hne].
    + cbn. rewrite El, E. do 3 (split; [reflexivity|]). split; [|reflexivity].
      unfold cross_inv. cbn. rewrite El. split; [lia|].
      destruct Hinv as [_ Hc]. exact Hc.
    + rewrite Hg. destruct p as [px py]. cbn [fst] in Hn. rewrite Hn, Hr.
    cbn [fst snd hvis vvis last_index set_cross_hair_visible x_seg y_seg i_seg hline vline dot scat].
      do 3 (split; [reflexivity|]). split; [|reflexivity]. apply Fresh; reflexivity.
  - rewrite Hg. destruct p as [px py]. cbn [fst] in Hn. rewrite Hn, Hr.
    cbn [fst snd hvis vvis last_index set_cross_hair_visible x_seg y_seg i_seg hline vline dot scat].
    do 3 (split; [reflexivity|]). split; [|reflexivity]. apply Fresh; reflexivity.
Qed.

Lemma click_keeps_cross e s b xd :
  let s' := fst (on_mouse_click e s b xd) in
  last_index s' = last_index s /\ vline s' = vline s /\ hline s' = hline s /\
  dot s' = dot s /\ hvis s' = hvis s /\ vvis s' = vvis s.
Proof.
  unfold on_mouse_click. destruct (b =? 1)%Z.
  - unfold left_click. destruct xd as [x|]; [|simpl; auto 6].
    destruct (nearest_row _ _); [|simpl; auto 6]. destruct (nth_error _ _); simpl; auto 6.
  - destruct (b =? 3)%Z; [|simpl; auto 6]. unfold right_click.
    destruct (pop (x_seg s)); [|simpl; auto 6]. cbn [y_seg i_seg].
    destruct (pop (y_seg s)); [|simpl; auto 6]. cbn [y_seg i_seg].
    destruct (pop (i_seg s)); simpl; auto 6.
Qed.

Lemma last_move_app l ev : last_move (l ++ [ev]) =
  match ev with Move ia xd => Some (ia, xd) | Click _ _ => last_move l end.
Proof.
  induction l as [|a l IH].
  - destruct ev; reflexivity.
  - cbn [app last_move]. rewrite IH. destruct ev; reflexivity.
Qed.

Lemma run_cross e minx maxy dot0 evs : data e <> [] -> line e <> [] ->
  let s := run e (init minx maxy dot0) evs in
  cross_inv e s /\
  match last_move evs with
  | None => True
  | Some (false, _) => hvis s = false /\ vvis s = false
  | Some (true, xd) => hvis s = true /\ vvis s = true /\ last_index s = Some (snap_ix (line e) xd)
  end.
Proof.
  intros Hd Hl. induction evs as [|ev evs IH] using rev_ind.
  - simpl. split; [exact I|exact I].
  - cbv zeta in *. rewrite run_app, last_move_app. set (s := run e (init minx maxy dot0) evs) in *.
    destruct IH as [Hinv Hlast].
    change (run e s [ev]) with (fst (step e s ev)).
    destruct ev as [ia xd|b xd]; cbn [step].
    + destruct ia.
      * destruct (move_in e s xd Hd Hl Hinv) as [V1 [V2 [V3 [V4 _]]]]. auto.
      * cbn. split; [exact I|]. auto.
    + destruct (click_keeps_cross e s b xd) as [K1 [K2 [K3 [K4 [K5 K6]]]]].
      split.
      * unfold cross_inv, cross_at in *. rewrite K1, K2, K3, K4. exact Hinv.
      * rewrite K1, K5, K6. exact Hlast.
Qed.

Lemma snapped_unique l xd k k' : increasing l -> snapped l xd k -> snapped l xd k' -> k = k'.
Proof.
  assert (W : forall a b, snapped l xd a -> snapped l xd b -> (a < b)%nat -> False).
  { intros a b [A1 [A2 A3]] [B1 [B2 B3]] Hab.
    destruct A3 as [A3|[p [Hp A3]]]; [lia|]. specialize (B2 a p Hab Hp). lra. }
  intros _ A B. destruct (lt_eq_lt_dec k k') as [[H|H]|H]; [exfalso; eauto|exact H|exfalso; eauto].
Qed.
