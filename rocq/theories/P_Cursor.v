(** Properties C13-C16: the interactive picker (shipgrav/utils.py 178-278). *)
From Coq Require Import List ZArith Reals Lia Lra Bool.
From Verif Require Import M_Py L_Base M_Cursor S_Cursor L_Cursor.
Import ListNotations.
Open Scope R_scope.

(** C13: after any history the pick lists are those of the abstract undo stack. *)
Theorem C13_click_history_is_undo_stack : forall e minx maxy dot0 evs, data e <> [] ->
  let s := run e (init minx maxy dot0) evs in
  exists stack, picks (data e) evs stack /\
    (forall stack', picks (data e) evs stack' -> stack' = stack) /\
    i_seg s = stack /\
    length (x_seg s) = length stack /\ length (y_seg s) = length stack /\
    scat s = (x_seg s, y_seg s) /\
    forall k i, nth_error stack k = Some i -> exists r, nth_error (data e) i = Some r /\
      nth_error (x_seg s) k = Some (lon_new r) /\ nth_error (y_seg s) k = Some (lat_new r).
Proof.
  intros e minx maxy dot0 evs Hd s.
  destruct (run_picks e minx maxy dot0 evs Hd) as [st [Hp [H1 [H2 [H3 [H4 H5]]]]]].
  exists st. split; [exact Hp|]. split; [intros st' H'; exact (picks_unique _ _ _ _ H' Hp)|].
  fold s in H1, H2, H3, H4.
  split; [exact H1|]. split; [rewrite H2; apply map_length|]. split; [rewrite H3; apply map_length|].
  split; [exact H4|]. intros k i Hk.
  rewrite Forall_forall in H5. specialize (H5 i (nth_error_In _ _ Hk)).
  destruct (nth_error (data e) i) as [r|] eqn:Er; [|apply nth_error_None in Er; lia].
  exists r. split; [reflexivity|]. rewrite H2, H3. 
  rewrite !(map_nth_error _ k st Hk). unfold lonlat. rewrite Er. split; reflexivity.
Qed.
Print Assumptions C13_click_history_is_undo_stack.

Definition ex_env : env :=
  Env [(0, 5); (10, 6)] [Row 0 100 1; Row 10 110 2; Row 20 120 3].

Example C13_case : data ex_env <> [] /\
  picks (data ex_env) [Click 1 (Some 1); Move true 3; Click 1 (Some 19); Click 3 None] [0%nat].
Proof.
  split; [discriminate|].
  apply (picks_right _ [Click 1 (Some 1); Move true 3; Click 1 (Some 19)] [0%nat] 2%nat None).
  apply (picks_left _ [Click 1 (Some 1); Move true 3] [0%nat] 19 2%nat).
  - apply (picks_move _ [Click 1 (Some 1)]). apply (picks_left _ [] [] 1 0%nat); [constructor|].
    exists (Row 0 100 1). split; [reflexivity|]. split.
    + intros [|[|[|j]]] r' H; simpl in H; try (destruct j; discriminate); injection H as <-; simpl;
        unfold Rabs; repeat destruct (Rcase_abs _); lra.
    + intros; lia.
  - exists (Row 20 120 3). split; [reflexivity|]. split.
    + intros [|[|[|j]]] r' H; simpl in H; try (destruct j; discriminate); injection H as <-; simpl;
        unfold Rabs; repeat destruct (Rcase_abs _); lra.
    + intros [|[|j]] r' Hj H; simpl in H; try lia; injection H as <-; simpl;
        unfold Rabs; repeat destruct (Rcase_abs _); lra.
Qed.

(** C14: a right click raises exactly when there is no pick; it then changes nothing,
    so the rest of the history behaves as without it. *)
Theorem C14_right_click_on_empty : forall e minx maxy dot0 evs xd, data e <> [] ->
  let s := run e (init minx maxy dot0) evs in
  (snd (step e s (Click 3 xd)) = Some IndexError <-> i_seg s = []) /\
  (snd (step e s (Click 3 xd)) = None <-> i_seg s <> []) /\
  (i_seg s = [] -> fst (step e s (Click 3 xd)) = s /\ x_seg s = [] /\ y_seg s = [] /\
     forall more, run e (init minx maxy dot0) (evs ++ Click 3 xd :: more)
                = run e (init minx maxy dot0) (evs ++ more)).
Proof.
  intros e minx maxy dot0 evs xd Hd s.
  destruct (run_picks e minx maxy dot0 evs Hd) as [st [Hp [H1 [H2 [H3 [H4 H5]]]]]].
  fold s in H1, H2, H3, H4.
  assert (Hempty : i_seg s = [] -> step e s (Click 3 xd) = (s, Some IndexError)).
  { intros E. simpl. unfold on_mouse_click. simpl. unfold right_click.
    rewrite H2, <- H1, E. reflexivity. }
  assert (Hne : i_seg s <> [] -> snd (step e s (Click 3 xd)) = None).
  { intros E. simpl. unfold on_mouse_click. simpl. unfold right_click.
    destruct st as [|a st0]; [congruence|].
    destruct (exists_last (l := a :: st0)) as [st1 [i1 E1]]; [congruence|].
    rewrite E1 in *. rewrite H2, map_app. cbn [map]. rewrite (pop_last _ _ _). cbn [y_seg i_seg].
    rewrite H3, map_app. cbn [map]. rewrite (pop_last _ _ _). cbn [y_seg i_seg].
    rewrite H1, pop_last. reflexivity. }
  split; [|split].
  - split; [|intros E; rewrite (Hempty E); reflexivity].
    intros E. destruct (i_seg s) eqn:Ei; [reflexivity|].
    rewrite Hne in E by discriminate. discriminate.
  - split; [|exact Hne]. intros E Ei. rewrite (Hempty Ei) in E. discriminate.
  - intros E. rewrite (Hempty E). split; [reflexivity|].
    rewrite H2, H3, <- H1, E. split; [reflexivity|]. split; [reflexivity|].
    intros more. rewrite !run_app. fold s. change (Click 3 xd :: more) with ([Click 3 xd] ++ more).
    rewrite run_app. change (run e s [Click 3 xd]) with (fst (step e s (Click 3 xd))).
    rewrite (Hempty E). reflexivity.
Qed.
Print Assumptions C14_right_click_on_empty.

Example C14_case : i_seg (run ex_env (init 0 0 (0, 0)) [Move true 3]) = [].
Proof. destruct (move_keeps_picks ex_env (init 0 0 (0,0)) true 3) as [H _]. exact H. Qed.

(** C15: the cross hair after any history. *)
Theorem C15_cross_hair_on_data_point : forall e minx maxy dot0 evs, data e <> [] -> line e <> [] ->
  let s := run e (init minx maxy dot0) evs in
  match last_move evs with
  | None => True
  | Some (false, _) => hvis s = false /\ vvis s = false
  | Some (true, xd) => hvis s = true /\ vvis s = true /\
      exists k p, snapped (line e) xd k /\ nth_error (line e) k = Some p /\
        vline s = fst p /\ hline s = snd p /\
        exists i r, nearest (data e) (fst p) i /\ nth_error (data e) i = Some r /\
          dot s = (lon_new r, lat_new r)
  end.
Proof.
  intros e minx maxy dot0 evs Hd Hl s.
  destruct (run_cross e minx maxy dot0 evs Hd Hl) as [Hinv Hlast]. fold s in Hinv, Hlast.
  destruct (last_move evs) as [[[|] xd]|]; [|exact Hlast|exact I].
  destruct Hlast as [V1 [V2 V3]]. split; [exact V1|]. split; [exact V2|].
  unfold cross_inv in Hinv. rewrite V3 in Hinv. destruct Hinv as [_ [p [Hp [A1 [A2 A3]]]]].
  exists (Z.to_nat (snap_ix (line e) xd)), p.
  split; [apply snap_ix_snapped; exact Hl|]. auto.
Qed.
Print Assumptions C15_cross_hair_on_data_point.

(** C15: movement never raises. *)
Theorem C15_move_never_raises : forall e minx maxy dot0 evs ia xd, data e <> [] -> line e <> [] ->
  snd (step e (run e (init minx maxy dot0) evs) (Move ia xd)) = None.
Proof.
  intros e minx maxy dot0 evs ia xd Hd Hl.
  destruct (run_cross e minx maxy dot0 evs Hd Hl) as [Hinv _].
  destruct ia; [|reflexivity]. apply (move_in e _ xd Hd Hl Hinv).
Qed.
Print Assumptions C15_move_never_raises.

Example C15_case : data ex_env <> [] /\ line ex_env <> [] /\ increasing (line ex_env) /\
  last_move [Move true 3; Click 1 (Some 1); Click 3 None] = Some (true, 3).
Proof.
  split; [discriminate|]. split; [discriminate|]. split; [|reflexivity].
  intros [|[|[|i]]] [|[|[|j]]] p q Hij Hp Hq; simpl in *; try lia; try discriminate;
    try (destruct j; discriminate); injection Hp as <-; injection Hq as <-; simpl; lra.
Qed.

(** C16: between two neighbouring points the cross hair always jumps to the right one,
    also when the left one is closer. *)
Theorem C16_snaps_to_right_neighbour : forall e minx maxy dot0 evs xd k p q,
  data e <> [] -> increasing (line e) ->
  nth_error (line e) k = Some p -> nth_error (line e) (S k) = Some q ->
  fst p < xd <= fst q ->
  vline (run e (init minx maxy dot0) (evs ++ [Move true xd])) = fst q.
Proof.
  intros e minx maxy dot0 evs xd k p q Hd Hinc Hp Hq Hx.
  assert (Hl : line e <> []) by (intros E; rewrite E in Hp; destruct k; discriminate).
  pose proof (C15_cross_hair_on_data_point e minx maxy dot0 (evs ++ [Move true xd]) Hd Hl) as H.
  cbv zeta in H. rewrite last_move_app in H.
  destruct H as [_ [_ [j [p' [Hs [Hj [Hv _]]]]]]]. rewrite Hv.
  assert (Hs' : snapped (line e) xd (S k)).
  { split; [apply nth_error_Some; congruence|]. split.
    - intros i p0 Hi H0. destruct (Nat.eq_dec i k) as [->|].
      + rewrite Hp in H0. injection H0 as <-. lra.
      + assert (fst p0 < fst p) by (apply (Hinc i k); [lia|assumption|assumption]). lra.
    - right. exists q. split; [exact Hq|lra]. }
  rewrite (snapped_unique _ _ _ _ Hinc Hs Hs') in Hj. rewrite Hq in Hj. injection Hj as <-. reflexivity.
Qed.
Print Assumptions C16_snaps_to_right_neighbour.

Theorem C16_snaps_to_closest_refuted : exists e xd, data e <> [] /\ increasing (line e) /\
  let s := run e (init 0 0 (0, 0)) [Move true xd] in
  exists p, In p (line e) /\ Rabs (xd - fst p) < Rabs (xd - vline s).
Proof.
  exists ex_env, 1. split; [discriminate|]. split; [apply C15_case|]. cbv zeta.
  exists (0, 5). split; [left; reflexivity|].
  change [Move true 1] with ([] ++ [Move true 1]).
  rewrite (C16_snaps_to_right_neighbour ex_env 0 0 (0, 0) [] 1 0 (0, 5) (10, 6)).
  - simpl. unfold Rabs. repeat destruct (Rcase_abs _); lra.
  - discriminate.
  - apply C15_case.
  - reflexivity.
  - reflexivity.
  - simpl. lra.
Qed.
Print Assumptions C16_snaps_to_closest_refuted.
