(** Properties C86 and C87: extended line and embedded free-air anomaly (RMBA_calc.py). *)
From Coq Require Import List Reals Arith ZArith Lia Lra Bool.
From Verif Require Import M_Py M_CC M_Four M_Filt M_Ext S_Base S_Filt S_Ext L_Base L_CC L_Four L_Filt P_Filt.
Import ListNotations.
Open Scope R_scope.

Lemma pysum_diff x : (1 <= length x)%nat -> pysum (np_diff x) = nth (length x - 1) x 0 - nth 0 x 0.
Proof.
  intros H. rewrite pysum_Rsum, np_diff_length. rewrite (Rsum_ext _ _ (fun i => nth (S i) x 0 - nth i x 0)) by (intros i Hi; apply nth_np_diff; lia).
  assert (G : forall m, Rsum m (fun i => nth (S i) x 0 - nth i x 0) = nth m x 0 - nth 0 x 0) by (induction m as [|m IH]; [cbn; ring|cbn [Rsum]; rewrite IH; ring]).
  apply G.
Qed.
Lemma ranges_ends g p0 pts : (2 <= length pts)%nat -> length (ranges g p0 pts) = length pts /\ nth 0 (ranges g p0 pts) 0 = 0 /\
  nth (length pts - 1) (ranges g p0 pts) 0 = g_s12 g p0 (nth (length pts - 1) pts p0).
Proof.
  intros H. unfold ranges. split; [rewrite map_length, seq_length; reflexivity|]. split; rewrite nth_map_seq by lia; [reflexivity|].
  destruct (Nat.eqb_spec (length pts - 1) 0); [lia|reflexivity].
Qed.
Lemma last_nth (A : Type) (l : list A) d : last l d = nth (length l - 1) l d.
Proof. induction l as [|a [|b l] IH]; [reflexivity|reflexivity|]. change (last (a :: b :: l) d) with (last (b :: l) d). rewrite IH. cbn [length]. replace (S (S (length l)) - 1)%nat with (S (S (length l) - 1)) by lia. reflexivity. Qed.
Lemma spacing g p0 pts : (2 <= length pts)%nat -> np_mean (np_diff (ranges g p0 pts)) = g_s12 g p0 (nth (length pts - 1) pts p0) / (INR (length pts) - 1).
Proof.
  intros H. destruct (ranges_ends g p0 pts H) as (L & A & B). unfold np_mean. rewrite pysum_diff by lia. rewrite np_diff_length, L, A, B. rewrite minus_INR by lia. cbn [INR]. f_equal. ring.
Qed.
Lemma floor_steps q : 0 <= q -> whole_steps (Z.to_nat (Int_part q)) q 1.
Proof.
  intros H. destruct (base_Int_part q) as [A B]. assert (Z0 : (0 <= Int_part q)%Z) by (assert (-1 < Int_part q)%Z by (apply lt_IZR; lra); lia).
  unfold whole_steps. rewrite INR_IZR_INZ, Z2Nat.id by exact Z0. lra.
Qed.

(** C86: the segment lies in the middle, extended at both ends with its mean spacing by 500 km, a shorter one by its length. *)
Theorem C86_extension : forall g pts n p0 p1 L, length pts = n -> (2 <= n)%nat -> nth_error pts 0 = Some p0 -> nth_error pts (n - 1) = Some p1 ->
  L = g_s12 g p0 p1 -> 0 < L ->
  exists m line, extended_line g pts = Ok (m, line) /\ (L < 500000 -> m = (n - 1)%nat) /\ (500000 <= L -> whole_steps m 500000 (L / (INR n - 1))) /\
    length line = (2 * m + n)%nat /\
    (forall i, (i < n)%nat -> nth_error line (m + i) = nth_error pts i) /\
    (forall i, (i < m)%nat -> nth_error line (m - 1 - i) = Some (g_direct g p0 (g_azi2 g p1 p0) (L / (INR n - 1) * (INR i + 1)))) /\
    (forall i, (i < m)%nat -> nth_error line (m + n + i) = Some (g_direct g p1 (g_azi2 g p0 p1) (L / (INR n - 1) * (INR i + 1)))).
Proof.
  intros g pts n p0 p1 L Hn H2 E0 E1 EL HL. destruct pts as [|p pts]; [discriminate E0|]. cbn in E0. injection E0 as ->. unfold extended_line. set (l := p0 :: pts) in *.
  assert (P1 : last l p0 = p1) by (rewrite last_nth, Hn; apply nth_error_nth with (d := p0) in E1; exact E1). rewrite P1.
  rewrite spacing by lia. rewrite <- last_nth, P1, Hn, <- EL. destruct (Nat.leb_spec n 1); [lia|].
  assert (N1 : 0 < INR n - 1) by (assert (1 < INR n) by (apply (lt_INR 1); lia); lra). assert (D : 0 < L / (INR n - 1)) by (apply Rdiv_lt_0_compat; lra).
  destruct (Req_EM_T (L / (INR n - 1)) 0) as [Q|_]; [lra|]. set (dx := L / (INR n - 1)) in *. set (ext := if Rlt_dec L 500e3 then L else 500e3).
  assert (X : 0 <= ext / dx) by (apply Rlt_le, Rdiv_lt_0_compat; [unfold ext; destruct (Rlt_dec L 500e3); lra|exact D]). pose proof (floor_steps _ X) as F. set (m := Z.to_nat (Int_part (ext / dx))) in *.
  eexists m, _. split; [reflexivity|]. split; [|split; [|split; [|split; [|split]]]].
  - intros Hs. unfold ext in F. destruct (Rlt_dec L 500e3); [|lra]. replace (L / dx) with (INR (n - 1)) in F by (rewrite minus_INR by lia; unfold dx; cbn [INR]; field; lra). unfold whole_steps in F.
    assert (INR m <= INR (n - 1) < INR (S m)) as [A B] by (rewrite S_INR; lra). apply INR_le in A. apply INR_lt in B. lia.
  - intros Hs. unfold ext in F. destruct (Rlt_dec L 500e3); [lra|]. unfold whole_steps in *. replace 500000 with (500e3 / dx * dx) by (field_simplify; lra).
    split; [apply Rmult_le_compat_r; lra|apply Rmult_lt_compat_r; lra].
  - rewrite !app_length, rev_length, !map_length, !seq_length, Hn. lia.
  - intros i Hi. rewrite nth_error_app2 by (rewrite rev_length, map_length, seq_length; lia). rewrite rev_length, map_length, seq_length. replace (m + i - m)%nat with i by lia. apply nth_error_app1. lia.
  - intros i Hi. rewrite nth_error_app1 by (rewrite rev_length, map_length, seq_length; lia). rewrite <- map_rev.
    rewrite nth_error_map. rewrite (nth_error_nth' _ 0%nat) by (rewrite rev_length, seq_length; lia). rewrite rev_nth by (rewrite seq_length; lia). rewrite seq_length, seq_nth by lia. cbn [option_map]. do 4 f_equal. f_equal. lia.
  - intros i Hi. rewrite nth_error_app2 by (rewrite rev_length, map_length, seq_length; lia). rewrite rev_length, map_length, seq_length. rewrite nth_error_app2 by lia.
    rewrite nth_error_map. rewrite (nth_error_nth' _ 0%nat) by (rewrite seq_length; lia). rewrite seq_nth by lia. cbn [option_map]. do 4 f_equal. f_equal. lia.
Qed.
Print Assumptions C86_extension.

Theorem C86_failures : forall g,
  extended_line g [] = Raise IndexError /\ (forall p, extended_line g [p] = Raise ValueError) /\
  (forall p0 p pts, g_s12 g p0 (last (p :: pts) p0) = 0 -> extended_line g (p0 :: p :: pts) = Raise ValueError).
Proof.
  intros g. split; [reflexivity|]. split; [reflexivity|]. intros p0 p pts E. unfold extended_line. change (last (p0 :: p :: pts) p0) with (last (p :: pts) p0). rewrite E.
  destruct (Nat.leb_spec (length (p0 :: p :: pts)) 1) as [H|_]; [cbn in H; lia|]. rewrite spacing by (cbn; lia). rewrite <- last_nth. change (last (p0 :: p :: pts) p0) with (last (p :: pts) p0). rewrite E.
  destruct (Req_EM_T (0 / _) 0) as [_|N]; [|exfalso; apply N; unfold Rdiv; ring]. destruct (Rlt_dec 0 500e3); [|lra]. destruct (Req_EM_T 0 0); [reflexivity|lra].
Qed.
Print Assumptions C86_failures.

(** Points at latitude 0 of a plane. *)
Definition plane : geodesic := Geo (fun p q => Rabs (snd q - snd p)) (fun p q => if Rlt_dec (snd p) (snd q) then 1 else -1) (fun p a s => (fst p, snd p + a * s)).
Example C86_case : exists line, extended_line plane [(0, 0); (0, 3); (0, 20)] = Ok (2%nat, line) /\
  line = [(0, -20); (0, -10); (0, 0); (0, 3); (0, 20); (0, 30); (0, 40)].
Proof.
  destruct (C86_extension plane [(0, 0); (0, 3); (0, 20)] 3 (0, 0) (0, 20) 20 eq_refl ltac:(lia) eq_refl eq_refl) as (m & line & E & S & _ & Ln & Mid & Fr & Ba).
  { cbn. rewrite Rabs_right; lra. } { lra. }
  specialize (S ltac:(lra)). cbn in S. subst m. exists line. split; [exact E|]. cbn [plane g_direct g_azi2 fst snd] in Fr, Ba.
  destruct (Rlt_dec 20 0); [lra|]. destruct (Rlt_dec 0 20); [|lra].
  pose proof (Fr 1%nat ltac:(lia)) as F0. pose proof (Fr 0%nat ltac:(lia)) as F1. pose proof (Mid 0%nat ltac:(lia)) as M0. pose proof (Mid 1%nat ltac:(lia)) as M1. pose proof (Mid 2%nat ltac:(lia)) as M2.
  pose proof (Ba 0%nat ltac:(lia)) as B0. pose proof (Ba 1%nat ltac:(lia)) as B1. clear Fr Mid Ba E.
  do 7 (destruct line as [|? line]; [discriminate Ln|]). destruct line; [|discriminate Ln]. cbn [nth_error Nat.add Nat.sub] in *.
  injection F0 as ->. injection F1 as ->. injection M0 as ->. injection M1 as ->. injection M2 as ->. injection B0 as ->. injection B1 as ->.
  cbn [INR]. repeat f_equal; lra.
Qed.

(** C87: each filtered value comes to the row of its own position, and none of them depends on how the record is continued beyond its ends. *)
Lemma loc_assign_ok col a v : (a + length v <= length col)%nat -> loc_assign col a v =
  Ok (map (fun i => if (a <=? i)%nat && (i <? a + length v)%nat then nth (i - a) v 0 else nth i col 0) (seq 0 (length col))).
Proof. intros H. unfold loc_assign. rewrite Nat.min_r by lia. replace (a + length v - a)%nat with (length v) by lia. rewrite Nat.eqb_refl. reflexivity. Qed.
Theorem C87_embedded : forall h f n e t, four_minute_low_pass h -> (1440 < n)%nat -> (e + n <= length t + 480)%nat ->
  exists r, embed e t (map (fun k => f (Z.of_nat k)) (seq 0 n)) = Ok r /\ embedded h f n e t r.
Proof.
  intros h f n e t Hh Hn Ht. destruct (script_filter_fb (map (fun k => f (Z.of_nat k)) (seq 0 n))) as (y & E & Ly & _); [rewrite map_length, seq_length; exact Hn|].
  unfold embed. rewrite E. cbn [bind]. rewrite map_length, seq_length in Ly. assert (Lv : length (slice_neg y script_taps script_taps) = (n - 960)%nat) by (unfold slice_neg, script_taps; rewrite slice_length, Ly; lia).
  rewrite loc_assign_ok by (rewrite Lv; unfold script_taps; lia). eexists. split; [reflexivity|]. rewrite Lv. unfold embedded. split; [rewrite map_length, seq_length; reflexivity|]. split.
  - intros i H1 H2. rewrite nth_map_seq by lia. unfold script_taps at 1 2 3. destruct (Nat.leb_spec (e + 480) (e + i)); [|lia]. destruct (Nat.ltb_spec (e + i) (e + 480 + (n - 960))); [|lia]. cbn [andb].
    unfold slice_neg. rewrite nth_slice by (unfold script_taps; lia). rewrite <- (C81_interior h f n y Hh E i) by lia. f_equal. unfold script_taps. lia.
  - intros j Hj. destruct (Nat.lt_ge_cases j (length t)) as [L|L]; [|rewrite !nth_overflow; [reflexivity|exact L|rewrite map_length, seq_length; exact L]].
    rewrite nth_map_seq by exact L. unfold script_taps. destruct (Nat.leb_spec (e + 480) j); [|reflexivity]. destruct (Nat.ltb_spec j (e + 480 + (n - 960))); [lia|reflexivity].
Qed.
Print Assumptions C87_embedded.

(** Along the extended line of C86 there is always room. *)
Theorem C87_on_extended_line : forall g pts m line h f t, extended_line g pts = Ok (m, line) -> four_minute_low_pass h -> (1440 < length pts)%nat -> length t = length line ->
  exists r, embed m t (map (fun k => f (Z.of_nat k)) (seq 0 (length pts))) = Ok r /\ embedded h f (length pts) m t r /\
    forall i, (i < length pts)%nat -> nth_error line (m + i) = nth_error pts i.
Proof.
  intros g pts m line h f t E Hh Hn Ht.
  assert (S : exists a b, line = a ++ pts ++ b /\ length a = m).
  { unfold extended_line in E. destruct pts as [|p0 pts]; [discriminate|]. destruct (length (p0 :: pts) <=? 1)%nat; [discriminate|]. destruct (Req_EM_T _ 0); [destruct (Req_EM_T _ 0); discriminate|].
    pose proof (f_equal (fun r => match r with Ok x => fst x | Raise _ => 0%nat end) E) as E1. pose proof (f_equal (fun r => match r with Ok x => snd x | Raise _ => [] end) E) as E2. cbn [fst snd] in E1, E2.
    eexists _, _. split; [symmetry; exact E2|]. rewrite rev_length, map_length, seq_length. exact E1. }
  destruct S as (a & b & -> & <-). rewrite !app_length in Ht. destruct (C87_embedded h f (length pts) (length a) t Hh Hn ltac:(lia)) as (r & E1 & E2). exists r. split; [exact E1|]. split; [exact E2|].
  intros i Hi. rewrite nth_error_app2 by lia. replace (length a + i - length a)%nat with i by lia. apply nth_error_app1. exact Hi.
Qed.
Print Assumptions C87_on_extended_line.

(** A short record, or one that reaches beyond the table, is refused. *)
Theorem C87_failures : forall e t d,
  ((length d <= 1440)%nat -> embed e t d = Raise ValueError) /\
  ((1440 < length d)%nat -> (length t + 480 < e + length d)%nat -> length t <> (length d - 960)%nat -> embed e t d = Raise ValueError).
Proof.
  intros e t d. split.
  - intros H. unfold embed, script_filter. rewrite filtfilt_short; [reflexivity|]. rewrite script_B_length. cbn [Nat.max]. lia.
  - intros H1 H2 H3. destruct (script_filter_fb d H1) as (y & E & Ly & _). unfold embed. rewrite E. cbn [bind]. unfold loc_assign.
    assert (Lv : length (slice_neg y script_taps script_taps) = (length d - 960)%nat) by (unfold slice_neg, script_taps; rewrite slice_length, Ly; lia). rewrite Lv. unfold script_taps.
    destruct (Nat.eqb_spec (Nat.min (length t) (e + 480 + (length d - 960)) - (e + 480)) (length d - 960)); [lia|]. destruct (Nat.eqb_spec (length d - 960) (length t)); [lia|]. rewrite andb_false_r. reflexivity.
Qed.
Print Assumptions C87_failures.
(** A straight record of 1500 samples in a table of zeros. *)
Example C87_case : exists r, embed 1499 (repeat 0 4498) (map (fun k => IZR (Z.of_nat k)) (seq 0 1500)) = Ok r /\ nth 1978 r 0 = 0 /\ nth 1979 r 0 = 480 /\ nth 2518 r 0 = 1019 /\ nth 2519 r 0 = 0.
Proof.
  destruct (C87_embedded hw IZR 1500 1499 (repeat 0 4498) hw_low_pass) as (r & E & _ & A & B); [lia|rewrite repeat_length; lia|]. exists r. split; [exact E|].
  assert (F : forall m, forwards_backwards hw IZR m = IZR m).
  { intros m. rewrite <- (Rplus_0_l (IZR m)), <- (Rmult_1_l (IZR m)) at 1. rewrite <- (fb_line hw 0 1 m) by (apply hw_low_pass). apply fb_ext. intros z _. ring. }
  split; [rewrite B by lia; apply nth_repeat|]. split; [change 1979%nat with (1499 + 480)%nat; rewrite A by lia; apply F|]. split; [change 2518%nat with (1499 + 1019)%nat; rewrite A by lia; apply F|rewrite B by lia; apply nth_repeat].
Qed.
