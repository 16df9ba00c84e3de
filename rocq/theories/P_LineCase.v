(** A case for property C112. *)
From Coq Require Import ZArith QArith Qround Reals Qreals Ascii String Bool Sorted Permutation Lra Lia List.
From Verif Require Import S_Bgm S_Dgs P_Dgs M_Py M_Np M_Str S_Str L_Str M_Cal S_Cal L_Cal L_Base S_Base M_Ini M_Corr M_Tide M_Nmea S_Nmea M_ReadNav S_ReadNav M_Table S_Table L_Table M_Bgm M_Dgs S_Corr S_Tide S_Faa
  M_Faa M_Filt S_Filt M_Nan S_Nan L_Nan L_Faa P_Faa P_Filt P_Nan P_Nmea P_ReadNav M_Script S_Script L_Script P_Script M_Meters P_Meters P_Equator L_Dgs L_Rows M_Cursor S_Cursor M_Seg S_Seg L_Seg P_Seg M_Ext P_Ext M_Line P_Line.
Import ListNotations.
Open Scope Z_scope.
Local Notation len := List.length.

(** ** A case *)
(** 2200 seconds from 10:15:31 on, sailing east along the equator as in P_Equator.v; rows 500 to 1949 make a segment of 1450 rows. *)
Definition long_record (k : N) : str := lit "1,9800.25,-2,3,4,5,6,7,8,9,10,11,12,13,14,15,16,17,18,2024,2,29,10," ++ two_digits (15 + (31 + k) / 60) ++ lit "," ++ two_digits ((31 + k) mod 60) ++ lit ",25" ++ [nl].
Definition long_files (p : str) : option str := if str_eqb p (lit "dgs") then Some (concat (map long_record (from 0 2200))) else eq_files p.
Definition long_us : list Z := map (fun k => 1709201731000000 + 1000000 * Z.of_nat k) (seq 0 2200).
Lemma long_dgs : good_table (read_dgs_laptop long_files case_dates [lit "dgs"] (lit "Atlantis") None) long_us 9800.25 = true.
Proof. vm_cast_no_check (eq_refl true). Qed.
Lemma long_provided : Forall2 (provides long_files (lit "Atlantis") gp None) [lit "n"] [eq_data].
Proof. constructor; [|constructor]. exists eq_text. eexists. split; [reflexivity|]. split; [exact eq_lines|exact eq_file]. Qed.
Lemma long_length : len long_us = 2200%nat.
Proof. unfold long_us. rewrite map_length, seq_length. reflexivity. Qed.
Lemma long_talker : talker_for (lit "Atlantis") (Some (lit "GPGGA")) gp.
Proof. reflexivity. Qed.

(** The rows of a ship on a parallel lie on it. *)
Lemma parallel_rows argsort fsys td ship tk nav_paths files dgs_paths T us gs bias y l0 q i0 :
  sorts argsort -> known_ship ship -> talker_for ship (Some (lit "GPGGA")) tk -> Forall2 (provides fsys ship tk None) nav_paths files -> along_parallel files y l0 q i0 ->
  read_dgs_laptop fsys td dgs_paths ship None = Ok (Some T) -> meter_table T us gs -> (1440 < len us)%nat ->
  forall rows idx k j r, line_table argsort fsys td ship nav_paths dgs_paths bias = Ok rows -> time_order us idx -> nth_error idx k = Some j -> nth_error rows k = Some r ->
  l_lon r = Some (steady_lon l0 q i0 (nth j us 0)) /\ l_lat r = Some y.
Proof.
  intros So Hs Ht Hp Ha Hr M H3 rows idx k j r E O Hj Hk.
  destruct C112_table as (h & _ & X). destruct (X argsort fsys td ship tk nav_paths files dgs_paths T us gs bias So Hs Ht Hp Hr M H3) as (nav & idx' & T' & faa & full & rows' & En & _ & E' & O' & L & _ & _ & _ & _ & V).
  assert (rows' = rows) by (rewrite E in E'; injection E'; auto). subst rows'. clear X E E'.
  assert (Lj : len idx' = len us) by (destruct O' as [O' _]; apply Permutation_length in O'; rewrite seq_length in O'; exact O').
  assert (Hk' : (k < len us)%nat) by (rewrite <- L; apply nth_error_Some; congruence).
  destruct (nth_error idx' k) as [j'|] eqn:Hj'; [|apply nth_error_None in Hj'; lia].
  assert (Ej : nth j us 0 = nth j' us 0).
  { pose proof (same_order us us idx idx' (Permutation_refl _) O O') as SO. pose proof (f_equal (fun l => nth_error l k) SO) as Z. cbn beta in Z. rewrite !nth_error_map, Hj, Hj' in Z. cbn [option_map] in Z. congruence. }
  destruct (parallel_nav fsys ship (Some (lit "GPGGA")) false nav_paths tk files y l0 q i0 Hs Ht Hp Ha) as (nv & E1 & A & H2 & F).
  assert (nv = map nav_fix nav).
  { unfold script_nav in E1. match type of E1 with bind ?r _ = _ => replace r with (Ok (Table nav)) in E1 by (symmetry; exact En) end. cbn [bind] in E1. congruence. }
  subst nv. rewrite map_length in H2. destruct (V k j' r Hj' Hk) as (_ & _ & _ & B). destruct (B H2) as (b & Bb & Pos). rewrite <- Ej in *.
  assert (Hb : (S b < len nav)%nat) by (destruct Bb as [Hb _]; rewrite map_length in Hb; lia).
  destruct (nth_error nav b) as [f0|] eqn:F0; [|apply nth_error_None in F0; lia]. destruct (nth_error nav (S b)) as [f1|] eqn:F1; [|apply nth_error_None in F1; lia].
  rewrite Forall_forall in F. destruct (F (nav_fix f0)) as [G0 G0']; [apply in_map; exact (nth_error_In _ _ F0)|]. destruct (F (nav_fix f1)) as [G1 G1']; [apply in_map; exact (nth_error_In _ _ F1)|].
  cbn [nav_fix f_lon f_lat f_time] in G0, G0', G1, G1'.
  assert (Nt : (IZR (time f1) - IZR (time f0) <> 0)%R).
  { assert (Z : (nth b (map f_time (map nav_fix nav)) 0 < nth (S b) (map f_time (map nav_fix nav)) 0)%R) by (apply A; rewrite !map_length; lia).
    rewrite (nth_error_nth _ b 0%R (map_nth_error f_time _ _ (map_nth_error nav_fix _ _ F0))), (nth_error_nth _ (S b) 0%R (map_nth_error f_time _ _ (map_nth_error nav_fix _ _ F1))) in Z. cbn [nav_fix f_time] in Z. lra. }
  pose proof (Pos fix_lon (l_lon r) (or_introl (conj eq_refl eq_refl))) as P1. pose proof (Pos fix_lat (l_lat r) (or_intror (conj eq_refl eq_refl))) as P2.
  rewrite (nth_error_nth _ b None (map_nth_error fix_lon _ _ F0)), (nth_error_nth _ (S b) None (map_nth_error fix_lon _ _ F1)), G0, G1 in P1.
  rewrite (nth_error_nth _ b None (map_nth_error fix_lat _ _ F0)), (nth_error_nth _ (S b) None (map_nth_error fix_lat _ _ F1)), G0', G1' in P2.
  rewrite (nth_error_nth _ b 0%R (map_nth_error (fun f => IZR (time f)) _ _ F0)), (nth_error_nth _ (S b) 0%R (map_nth_error (fun f => IZR (time f)) _ _ F1)) in P1, P2.
  destruct P1 as (x & -> & O1). destruct P2 as (z & -> & O2). unfold on_line in O1, O2. split; f_equal.
  - unfold steady_lon. rewrite minus_IZR. apply (Rmult_eq_reg_r (IZR (time f1) - IZR (time f0))); [|exact Nt]. set (w := (q * 180 / PI)%R) in *. lra.
  - apply (Rmult_eq_reg_r (IZR (time f1) - IZR (time f0))); [|exact Nt]. lra.
Qed.
Lemma Forall2_nth_intro (A B : Type) (P : A -> B -> Prop) l : forall l', len l = len l' -> (forall i a b, nth_error l i = Some a -> nth_error l' i = Some b -> P a b) -> Forall2 P l l'.
Proof.
  induction l as [|a l IH]; intros [|b l'] L H; try discriminate L; constructor; [apply (H 0%nat); reflexivity|]. apply IH; [injection L; auto|]. intros i. exact (H (S i)).
Qed.
Lemma long_at k : (k < 2200)%nat -> (steady_lon eq_l0 eq_q 1709201731000000 (1709201731000000 + 1000000 * Z.of_nat k) = eq_l0 + INR k / 120)%R.
Proof.
  intros _. unfold steady_lon. replace (1709201731000000 + 1000000 * Z.of_nat k - 1709201731000000) with (1000000 * Z.of_nat k) by ring. rewrite mult_IZR, <- INR_IZR_INZ.
  unfold eq_q. field. apply PI_neq0.
Qed.
Example C112_case : exists rows table c m line r x,
  line_table insertion_sort long_files case_dates (lit "Atlantis") [lit "n"] [lit "dgs"] 970000 = Ok rows /\ len rows = 2200%nat /\
  without_edges rows table /\ rows_from_to table 20 1470 c /\
  rmba_line plane c (repeat None 4348) = Some (Ok (m, line, r)) /\ m = 1449%nat /\ len line = 4348%nat /\
  nth_error line (m + 700) = Some (0, eq_l0 + 10)%R /\ nth_error r (m + 700) = Some (Some x) /\ nth_error (map l_filt rows) 1200 = Some (Some x) /\
  nth_error r (m + 479) = Some None /\ nth_error r (m + 970) = Some None /\
  Forall (fun r => nth_error (line_names r) 16 = Some (lit "date_time")) rows.
Proof.
  destruct (good_table_ok _ _ _ long_dgs) as (T & gs & Er & M & _). assert (L3 : (1440 < len long_us)%nat) by (rewrite long_length; lia).
  destruct C112_table as (h & _ & X). destruct (X insertion_sort long_files case_dates (lit "Atlantis") gp [lit "n"] [eq_data] [lit "dgs"] T long_us gs 970000%R insertion_sort_sorts case_ship long_talker long_provided Er M L3)
    as (nav & idx & T' & faa & full & rows & _ & Ed & E & O & L & Hf & _ & Mf & _). clear X.
  destruct (C112_profile insertion_sort long_files case_dates (lit "Atlantis") gp [lit "n"] [eq_data] [lit "dgs"] T long_us gs 970000%R insertion_sort_sorts case_ship long_talker long_provided Er M L3) as (rows' & E' & Pf).
  assert (rows' = rows) by (clear - E E'; rewrite E in E'; injection E'; auto). subst rows'. clear E'. rewrite long_length in *.
  assert (Li : len idx = 2200%nat) by (destruct O as [O' _]; apply Permutation_length in O'; rewrite seq_length, long_length in O'; exact O').
  assert (SO : map (fun i => nth i long_us 0) idx = map (fun k => 1709201731000000 + 1000000 * Z.of_nat k) (seq 0 2200)).
  { pose proof (even_order long_us idx 1709201731000000 1000000 eq_refl O) as Z. rewrite long_length in Z. apply Z. apply Permutation_refl. }
  assert (At : forall k r, (k < 2200)%nat -> nth_error rows k = Some r -> l_lon r = Some (eq_l0 + INR k / 120)%R /\ l_lat r = Some 0%R).
  { intros k r Hk Hr. destruct (nth_error idx k) as [j|] eqn:Hj; [|apply nth_error_None in Hj; lia].
    pose proof (f_equal (fun l => nth_error l k) SO) as Z. cbn beta in Z. rewrite !nth_error_map, Hj, (nth_error_nth' (seq 0 2200) 0%nat), seq_nth in Z by (rewrite ?seq_length; lia). cbn [option_map plus] in Z.
    assert (Z' : nth j long_us 0 = 1709201731000000 + 1000000 * Z.of_nat k) by (apply some_inj; exact Z). clear Z.
    rewrite <- (long_at k Hk), <- Z'.
    exact (parallel_rows insertion_sort long_files case_dates (lit "Atlantis") gp [lit "n"] [eq_data] [lit "dgs"] T long_us gs 970000%R 0%R eq_l0 eq_q 1709201731000000
      insertion_sort_sorts case_ship long_talker long_provided eq_along Er M L3 rows idx k j r E O Hj Hr). }
  set (table := trim rows). assert (W : without_edges rows table) by (apply trim_without_edges; reflexivity). pose proof W as [Lt Wt]. rewrite L in Lt. change (2200 - 720)%nat with 1480%nat in Lt. clearbody table.
  set (c := slice table 20 1470). assert (Wc : rows_from_to table 20 1470 c) by (apply slice_rows; lia). pose proof Wc as [Lc Vc]. change (1470 - 20)%nat with 1450%nat in Lc. clearbody c.
  set (pts := map (fun i => (0, eq_l0 + INR (500 + i) / 120)%R : point) (seq 0 1450)).
  assert (Np : forall i, (i < 1450)%nat -> nth_error pts i = Some (0, eq_l0 + INR (500 + i) / 120)%R).
  { intros i Hi. unfold pts. rewrite nth_error_map, (nth_error_nth' _ 0%nat), seq_nth by (rewrite ?seq_length; lia). reflexivity. }
  assert (Lp : len pts = 1450%nat) by (unfold pts; rewrite map_length, seq_length; reflexivity).
  assert (Row : forall i, (i < 1450)%nat -> nth_error c i = nth_error rows (500 + i)).
  { intros i Hi. rewrite Vc by lia. rewrite Wt by lia. replace (480 + (20 + i))%nat with (500 + i)%nat by lia. reflexivity. }
  assert (Fp : Forall2 (fun r p => l_lat r = Some (fst p) /\ l_lon r = Some (snd p)) c pts).
  { apply Forall2_nth_intro; [transitivity 1450%nat; [exact Lc|symmetry; exact Lp]|]. intros i r p Hr Hp. assert (Hi : (i < 1450)%nat) by (assert (Q : nth_error c i <> None) by (intros Q0; rewrite Hr in Q0; discriminate Q0); apply nth_error_Some in Q; lia). rewrite Row in Hr by exact Hi. rewrite Np in Hp by exact Hi.
    destruct (At (500 + i)%nat r ltac:(lia) Hr) as [A1 A2]. apply some_inj in Hp. subst p. split; assumption. }
  destruct (C86_extension plane pts 1450 (0, eq_l0 + INR 500 / 120)%R (0, eq_l0 + INR 1949 / 120)%R (1449 / 120)%R Lp ltac:(lia)) as (m & line & Ee & Hm & _ & Ll & Mid & _).
  { rewrite Np by lia. rewrite Nat.add_0_r. reflexivity. }
  { rewrite Np by lia. reflexivity. }
  { cbn [plane g_s12 snd]. rewrite Rabs_pos_eq; rewrite !INR_IZR_INZ; change (Z.of_nat 500) with 500; change (Z.of_nat 1949) with 1949; lra. }
  { lra. }
  specialize (Hm ltac:(lra)). cbn in Hm. subst m. cbn [Nat.mul Nat.add] in Ll.
  destruct (Pf table 20%nat 1470%nat c plane pts 1449%nat line (repeat None 4348) W ltac:(lia) Wc Fp Ee ltac:(rewrite repeat_length; symmetry; exact Ll)) as [_ P].
  destruct (P ltac:(lia)) as (r & Em & _ & V1 & V2). clear P Pf.
  assert (Ff : forall k, (k < 2200)%nat -> exists a, nth_error faa k = Some (Some a)).
  { destruct (C103_equator insertion_sort long_files case_dates (lit "Atlantis") (Some (lit "GPGGA")) gp false [lit "n"] [eq_data] [lit "dgs"] T long_us gs 970000 eq_l0 eq_q 1709201731000000 1000000
      insertion_sort_sorts case_ship long_talker long_provided eq_along Er M ltac:(rewrite long_length; lia) eq_refl) as (jdx & T2 & faa2 & full2 & E2 & _ & Pj & L2 & V).
    { rewrite long_length. apply Permutation_refl. }
    replace (1000000 / IZR 1000000)%R with 1%R in E2 by field. assert (faa2 = faa) by (clear - Ed E2; rewrite Ed in E2; injection E2; auto). subst faa2.
    intros k Hk. destruct (centuries (1709201731000000 + 1000000 * Z.of_nat k)) as [cc Hc].
    assert (Lj : len jdx = 2200%nat) by (apply Permutation_length in Pj; rewrite seq_length, long_length in Pj; exact Pj).
    destruct (nth_error jdx k) as [j|] eqn:Hj; [|apply nth_error_None in Hj; lia]. destruct (V k j cc Hj Hc) as [_ V']. eexists. exact V'. }
  assert (Fx : exists x, nth_error (map l_filt rows) 1200 = Some (Some x)).
  { destruct (nth_error (map l_filt rows) 1200) as [[x|]|] eqn:Ex; [exists x; reflexivity| |apply nth_error_None in Ex; rewrite map_length in Ex; lia].
    exfalso. destruct (proj1 (Mf 1200%nat ltac:(lia)) Ex) as (i & Mi & _). assert (Hi : (i < 2200)%nat) by (rewrite <- L, <- (map_length l_faa), Hf; apply nth_error_Some; unfold missing in Mi; congruence).
    destruct (Ff i Hi) as [a Ha]. unfold missing in Mi. congruence. }
  destruct Fx as [x Ex]. exists rows, table, c, 1449%nat, line, r, x. split; [exact E|]. split; [exact L|]. split; [exact W|]. split; [exact Wc|]. split; [exact Em|]. split; [reflexivity|]. split; [exact Ll|].
  destruct (V1 700%nat ltac:(lia) ltac:(lia)) as [U1 U2]. split; [|split; [|split; [|split; [|split]]]].
  - rewrite U2, Np by lia. do 2 f_equal. rewrite INR_IZR_INZ. change (Z.of_nat (500 + 700)) with 1200. lra.
  - rewrite U1, Row by lia. rewrite nth_error_map in Ex. exact Ex.
  - exact Ex.
  - rewrite V2 by lia. apply nth_error_repeat. lia.
  - rewrite V2 by lia. apply nth_error_repeat. lia.
  - apply Forall_forall. intros rr Ir. refine (proj2 (proj1 (C112_names insertion_sort long_files case_dates (lit "Atlantis") [lit "n"] [lit "dgs"] 970000%R rows rr case_dates_keeps E Ir) _)). discriminate.
Qed.
