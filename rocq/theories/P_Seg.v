(** Property C77: the segments written by example-scripts/interactive_line_pick.py. *)
From Coq Require Import ZArith Ascii String Reals Lia Lra Arith List.
From Verif Require Import M_Py L_Base M_Str M_Cursor S_Cursor L_Cursor M_Seg S_Seg L_Seg.
Import ListNotations.
Open Scope R_scope.
Local Notation len := List.length.

(** C77: the accepted picks, two by two, give the files; other files are kept unless the user clears the directory. *)
Theorem C77_files : forall (A : Type) (view : A -> row) full table ffaa minx maxy passes evs d answer,
  without_edges full table -> table <> [] -> accepted passes evs ->
  exists stack D, picks (map view table) evs stack /\ line_pick view full ffaa minx maxy passes d answer = Some (Ok D) /\
  (forall j a b, segment stack j a b -> (a <= b < len table)%nat) /\
  (forall j a b name, segment stack j a b -> segment_file j a b name -> exists c, lookup D name = Some c /\ rows_from_to table a b c) /\
  (forall name, (forall j a b, segment stack j a b -> ~ segment_file j a b name) ->
     (answer = lit "c" -> lookup D name = None) /\ (answer <> lit "c" -> lookup D name = lookup d name)).
Proof. exact line_pick_accepted. Qed.
Print Assumptions C77_files.

(** C77: different segments have different files. *)
Theorem C77_names : forall j a b j' a' b' name, segment_file j a b name -> segment_file j' a' b' name -> j = j' /\ a = a' /\ b = b'.
Proof. exact segment_file_inj. Qed.
Print Assumptions C77_names.

(** C77: nothing is written before the picks are accepted, nor for a table that the trimming leaves empty. *)
Theorem C77_no_files : forall (A : Type) (view : A -> row) full table ffaa minx maxy passes d answer, without_edges full table ->
  (table <> [] -> (forall evs, ~ accepted passes evs) -> line_pick view full ffaa minx maxy passes d answer = None) /\
  (table = [] -> line_pick view full ffaa minx maxy passes d answer = Some (Raise IndexError)).
Proof.
  intros A view full table ffaa minx maxy passes d answer HT. split.
  - intros H1 H2. apply (line_pick_never A view full table); assumption.
  - intros ->. apply line_pick_short. destruct HT as [L _]. cbn in L. lia.
Qed.
Print Assumptions C77_no_files.

(** A ship moving for 800 seconds; rows 480 to 559 are offered. *)
Definition ship_row (k : nat) : row := Row (INR k) (INR k) 0.
Definition ship_table : list row := map ship_row (seq 0 800).
Definition two_clicks : list event := [Click 1 (Some (INR 490)); Click 1 (Some (INR 485))].

Lemma ship_edges : without_edges ship_table (map ship_row (seq 480 80)).
Proof.
  unfold ship_table. split; [rewrite !map_length, !seq_length; reflexivity|]. rewrite map_length, seq_length. intros k Hk.
  rewrite (map_nth_error ship_row k _ (d := (480 + k)%nat)), (map_nth_error ship_row (480 + k) _ (d := (480 + k)%nat)); [reflexivity| |].
  - rewrite (nth_error_nth' _ 0%nat) by (rewrite seq_length; lia). rewrite seq_nth by lia. reflexivity.
  - rewrite (nth_error_nth' _ 0%nat) by (rewrite seq_length; lia). rewrite seq_nth by lia. reflexivity.
Qed.
Lemma ship_nearest a n i : (i < n)%nat -> nearest (map ship_row (seq a n)) (INR (a + i)) i.
Proof.
  intros H. assert (G : forall j r, nth_error (map ship_row (seq a n)) j = Some r -> tsec r = INR (a + j)).
  { intros j r Hj. assert (J : (j < n)%nat).
    { assert (K : nth_error (map ship_row (seq a n)) j <> None) by congruence. apply nth_error_Some in K. rewrite map_length, seq_length in K. exact K. }
    rewrite (map_nth_error ship_row j _ (d := (a + j)%nat)) in Hj; [injection Hj as <-; reflexivity|].
    rewrite (nth_error_nth' _ 0%nat) by (rewrite seq_length; lia). rewrite seq_nth by lia. reflexivity. }
  exists (ship_row (a + i)). split.
  - apply map_nth_error. rewrite (nth_error_nth' _ 0%nat) by (rewrite seq_length; lia). rewrite seq_nth by lia. reflexivity.
  - cbn [tsec ship_row]. replace (INR (a + i) - INR (a + i)) with 0 by ring. rewrite Rabs_R0. split; [intros; apply Rabs_pos|].
    intros j r Hj Er. rewrite (G j r Er). apply Rabs_pos_lt. assert (INR (a + j) < INR (a + i)) by (apply lt_INR; lia). lra.
Qed.
Lemma ship_rows a n x y c : (y <= n)%nat -> rows_from_to (map ship_row (seq a n)) x y c -> c = map ship_row (seq (a + x) (y - x)).
Proof.
  intros Hy [L H]. apply nth_ext with (d := ship_row 0) (d' := ship_row 0); [rewrite map_length, seq_length; exact L|]. rewrite L. intros k Hk.
  rewrite map_nth, seq_nth by exact Hk. specialize (H k Hk). erewrite nth_error_nth; [reflexivity|]. rewrite H.
  rewrite (map_nth_error ship_row _ _ (d := (a + x + k)%nat)); [reflexivity|].
  rewrite (nth_error_nth' _ 0%nat) by (rewrite seq_length; lia). rewrite seq_nth by lia. f_equal. lia.
Qed.
Lemma ship_picks : picks (map ship_row (seq 480 80)) two_clicks [10; 5]%nat.
Proof.
  apply (picks_left _ [Click 1 (Some (INR 490))] [10%nat] (INR 485) 5%nat).
  - apply (picks_left _ [] [] (INR 490) 10%nat); [constructor|]. apply (ship_nearest 480 80 10). lia.
  - apply (ship_nearest 480 80 5). lia.
Qed.

(** The segment file would be expected to hold both picked points: the later one never is in it. *)
Theorem C77_both_points_in_file_refuted : exists (table : list row) (t1 t2 : R) (ffaa : list R) (D : dir row) (name : str) (c : list row),
  In t1 (map tsec table) /\ In t2 (map tsec table) /\ (exists full, without_edges full table /\
  line_pick (fun r => r) full ffaa 0 0 [([Click 1 (Some t1); Click 1 (Some t2)], [])] [] [] = Some (Ok D)) /\
  (forall n, lookup D n <> None -> n = name) /\ lookup D name = Some c /\ In t2 (map tsec c) /\ ~ In t1 (map tsec c).
Proof.
  destruct (line_pick_accepted row (fun r => r) ship_table (map ship_row (seq 480 80)) [] 0 0 [(two_clicks, [])] two_clicks [] []) as (stack & D & Hp & HL & HB & HF & HO).
  - exact ship_edges.
  - discriminate.
  - constructor. left. reflexivity.
  - rewrite map_id in Hp. pose proof (picks_unique _ _ _ _ Hp ship_picks) as ->.
    assert (S0 : segment [10; 5]%nat 0 5 10) by (exists 10%nat, 5%nat; split; [reflexivity|]; split; [reflexivity|]; right; lia).
    destruct (HF 0%nat 5%nat 10%nat _ S0 (segment_name_spec 0 (5, 10)%nat)) as (c & Hc & Lc & Rc).
    assert (C : c = map ship_row (seq 485 5)).
    { apply (ship_rows 480 80 5 10); [lia|]. split; [exact Lc|exact Rc]. }
    exists (map ship_row (seq 480 80)), (INR 490), (INR 485), [], D, (segment_name 0 (5, 10)%nat), c.
    split; [rewrite map_map; change (INR 490) with ((fun x => tsec (ship_row x)) 490%nat); apply in_map; apply in_seq; lia|].
    split; [rewrite map_map; change (INR 485) with ((fun x => tsec (ship_row x)) 485%nat); apply in_map; apply in_seq; lia|].
    split; [exists ship_table; split; [exact ship_edges|exact HL]|].
    split; [|split; [exact Hc|]].
    + intros n Hn. destruct (list_eq_dec Ascii.ascii_dec n (segment_name 0 (5, 10)%nat)) as [E|E]; [exact E|]. exfalso. apply Hn.
      apply (HO n); [|discriminate]. intros j a b (p & q & P1 & P2 & P3) K. destruct j as [|j].
      * injection P1 as <-. injection P2 as <-. assert (a = 5 /\ b = 10)%nat as [-> ->] by lia. apply E. apply segment_file_name. exact K.
      * rewrite (proj2 (nth_error_None [10; 5]%nat (2 * S j))) in P1 by (cbn; lia). discriminate.
    + rewrite C, map_map. split; [left; reflexivity|].
      intros K. assert (Q : forall k, In (INR 490) (map (fun x => INR x) (seq 485 k)) -> (490 < 485 + k)%nat).
      { intros k I. apply in_map_iff in I. destruct I as (x & Ex & Ix). apply INR_eq in Ex. apply in_seq in Ix. lia. }
      apply (Q 5%nat) in K. lia.
Qed.
Print Assumptions C77_both_points_in_file_refuted.

Example C77_case : segment [7; 3; 4; 9; 2]%nat 0 3 7 /\ segment [7; 3; 4; 9; 2]%nat 1 4 9 /\ (forall a b, ~ segment [7; 3; 4; 9; 2]%nat 2 a b) /\
  segment_file 1 4 907 (lit "segment_s1_4-907.dat") /\
  accepted [([Move true 1], lit "n"); ([], lit "maybe"); (two_clicks, []); ([], lit "y")] two_clicks.
Proof.
  split; [exists 7%nat, 3%nat; split; [reflexivity|]; split; [reflexivity|]; right; lia|].
  split; [exists 4%nat, 9%nat; split; [reflexivity|]; split; [reflexivity|]; left; lia|].
  split; [intros a b (p & q & _ & H & _); discriminate|].
  split; [exact (segment_name_spec 1 (4, 907)%nat)|].
  apply accepted_later; [discriminate|discriminate|]. apply accepted_later; [discriminate|discriminate|]. apply accepted_now. left. reflexivity.
Qed.
