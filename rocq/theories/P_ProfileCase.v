(** Property C116: a case.  A segment of 1441 points on a plane, the values along its extension constant but for the anomaly. *)
From Coq Require Import ZArith QArith Reals Qreals Lra Lia Ascii String Arith Bool List.
From Verif Require Import M_Py M_Np M_Str M_Ini M_Table M_Dgs M_Faa M_Nan M_Script M_Filt M_CC M_Four M_Ext M_Line M_Rmba M_Thick M_Ccp M_Profile.
From Verif Require Import S_Base S_Str S_Nmea S_ReadNav S_Table S_Filt S_Crust S_Faa S_Rmba S_Thick S_Profile S_Nan.
From Verif Require Import L_Base L_Np L_Str L_Num L_Toml L_Table L_Faa P_Nan P_Ext P_Rmba P_Thick P_Line P_Profile P_ProfileShift.
Import ListNotations.
Open Scope R_scope.
Local Notation len := List.length.

Definition figure (d : nat) : ascii := ascii_of_nat (48 + d).
Definition four_digits (k : nat) : str := [figure (k / 1000); figure (k / 100 mod 10); figure (k / 10 mod 10); figure (k mod 10)].
Lemma figure_value d : (d < 10)%nat -> digit_value (figure d) (Z.of_nat d).
Proof. intros H. apply (dv d). do 10 (destruct d as [|d]; [reflexivity|]). lia. Qed.
Lemma figure_digit d : (d < 10)%nat -> is_digit (figure d) = true.
Proof. intros H. do 10 (destruct d as [|d]; [reflexivity|]). lia. Qed.
Lemma four_bounds k : (k < 5000)%nat -> (k / 1000 < 10)%nat /\ (k / 100 mod 10 < 10)%nat /\ (k / 10 mod 10 < 10)%nat /\ (k mod 10 < 10)%nat.
Proof. intros H. split; [apply Nat.div_lt_upper_bound; lia|]. repeat split; apply Nat.mod_upper_bound; lia. Qed.
Lemma four_sum k : (k < 5000)%nat -> (k = k / 1000 * 1000 + (k / 100 mod 10) * 100 + (k / 10 mod 10) * 10 + k mod 10)%nat.
Proof.
  intros _. pose proof (Nat.div_mod k 10 ltac:(lia)) as A. pose proof (Nat.div_mod (k / 10) 10 ltac:(lia)) as B. pose proof (Nat.div_mod (k / 100) 10 ltac:(lia)) as C.
  rewrite Nat.div_div in B by lia. rewrite Nat.div_div in C by lia. change (10 * 10)%nat with 100%nat in B. change (100 * 10)%nat with 1000%nat in C. lia.
Qed.
Lemma four_value k : (k < 5000)%nat -> number_value (four_digits k) (inject_Z (Z.of_nat k)).
Proof.
  intros H. destruct (four_bounds k H) as (H3 & H2 & H1 & H0).
  exists (four_digits k), [], (four_digits k), [], (four_digits k), [], 1%Z, (Z.of_nat k), 0%Z.
  split. { apply nonspace_trimmed. unfold four_digits. assert (D : forall d, (d < 10)%nat -> ~ space (figure d)) by (intros d Hd; do 10 (destruct d as [|d]; [intros X; vm_compute in X; intuition discriminate|]); lia).
    repeat constructor; apply D; assumption. }
  split; [rewrite app_nil_r; reflexivity|]. split; [constructor|]. split; [discriminate|]. split; [constructor; reflexivity|]. split.
  { rewrite app_nil_r. replace (Z.of_nat k) with (Z.of_nat (k / 1000) * 10 ^ Z.of_nat 3 + (Z.of_nat (k / 100 mod 10) * 10 ^ Z.of_nat 2 + (Z.of_nat (k / 10 mod 10) * 10 ^ Z.of_nat 1 + (Z.of_nat (k mod 10) * 10 ^ Z.of_nat 0 + 0))))%Z.
    - unfold four_digits. repeat (apply wh_cons; [apply figure_value; assumption|]). apply wh_nil.
    - pose proof (four_sum k H) as E. change (10 ^ Z.of_nat 3)%Z with 1000%Z. change (10 ^ Z.of_nat 2)%Z with 100%Z. change (10 ^ Z.of_nat 1)%Z with 10%Z. change (10 ^ Z.of_nat 0)%Z with 1%Z. lia. }
  split; [constructor|]. change (Qpower (inject_Z 10) (0 - Z.of_nat (len (@nil ascii)))) with 1%Q. rewrite Z.mul_1_l, Qmult_1_r. reflexivity.
Qed.
Lemma digits_present s : s <> [] -> Forall (fun c => is_digit c = true) s -> ~ S_Table.missing s.
Proof.
  intros N F H. unfold S_Table.missing in H. cbn [map In] in H.
  repeat (destruct H as [H|H]; [subst s; first [apply N; reflexivity | inversion F; discriminate | inversion F as [|? ? _ F']; inversion F'; discriminate]|]). exact H.
Qed.

(** A file of rows of fields. *)
Lemma in_join d r c : In c (join [d] r) -> c = d \/ exists f, In f r /\ In c f.
Proof.
  induction r as [|f r IH]; [intros []|]. destruct r as [|f' r]; [intros H; right; exists f; split; [left; reflexivity|exact H]|].
  intros H. change (In c (f ++ [d] ++ join [d] (f' :: r))) in H. apply in_app_or in H. destruct H as [H|H]; [right; exists f; split; [left; reflexivity|exact H]|].
  apply in_app_or in H. destruct H as [[H|[]]|H]; [left; congruence|]. destruct (IH H) as [E|(g & G1 & G2)]; [left; exact E|right; exists g; split; [right; exact G1|exact G2]].
Qed.
Lemma written_file rows : Forall (fun r => r <> [] /\ Forall (fun f => ~ In tab f /\ ~ In nl f) r /\ ~ blank_line tab (join [tab] r)) rows ->
  csv_file tab 0 (concat (map (fun r => join [tab] r ++ [nl]) rows)) rows.
Proof.
  intros F. exists (map (fun r => join [tab] r ++ [nl]) rows), [], (map (fun r => join [tab] r ++ [nl]) rows), (map (join [tab]) rows), (map (join [tab]) rows).
  assert (N : forall r, Forall (fun f => ~ In tab f /\ ~ In nl f) r -> ~ In nl (join [tab] r)).
  { intros r H I. apply in_join in I. destruct I as [I|(f & I1 & I2)]; [discriminate I|]. rewrite Forall_forall in H. apply (proj2 (H f I1)). exact I2. }
  split; [|split; [reflexivity|split; [left; reflexivity|split; [|split]]]]; induction F as [|r rows (H1 & H2 & H3) F IH]; try constructor; auto.
  - cbn [map concat]. rewrite <- app_assoc. apply fl_line; [apply N; exact H2|exact IH].
  - split; [apply N; exact H2|right; reflexivity].
  - cbn [map]. split; [exact H1|]. split; [|reflexivity]. clear - H2. induction H2 as [|f r [H _] _ IH]; constructor; assumption.
Qed.

(** ** The case *)
Definition line_fields (a : str) (k : nat) : list str := [four_digits k; lit "0"; lit "-3000"; a; lit "100"; lit "5"].
Definition track_text (a : str) (n : nat) : str := concat (map (fun r => join [tab] r ++ [nl]) (map (line_fields a) (seq 0 n))).
Lemma tracked_map k (f : nat -> list str) (v : nat -> option R) l : (forall i, In i l -> exists s, field_at k (f i) s /\ (S_Table.missing s /\ v i = None \/ ~ S_Table.missing s /\ exists q, number_value s q /\ v i = Some (Q2R q))) ->
  tracked k (map f l) (map v l).
Proof. intros H. induction l as [|i l IH]; [constructor|]. constructor; [apply H; left; reflexivity|]. apply IH. intros j Hj. apply H. right. exact Hj. Qed.
Lemma track_text_file a q n : (2 <= n < 5000)%nat -> ~ S_Table.missing a -> number_value a q -> ~ In tab a -> ~ In nl a ->
  track_file (track_text a n) (map INR (seq 0 n)) (repeat 0 n) (repeat (Some (-3000)) n) (repeat (Some (Q2R q)) n) (repeat (Some 100) n) (repeat (Some 5) n).
Proof.
  intros Hn Ma Na Ta La. exists (map (line_fields a) (seq 0 n)).
  assert (Sq : forall i, In i (seq 0 n) -> (i < 5000)%nat) by (intros i Hi; apply in_seq in Hi; lia).
  assert (Cst : forall (X : Type) (v : X), repeat v n = map (fun _ => v) (seq 0 n)) by (intros X v; clear; generalize 0%nat; induction n as [|n IH]; intros s; [reflexivity|cbn [repeat seq map]; f_equal; apply IH]).
  split; [|split].
  - apply written_file. apply Forall_forall. intros r Hr. apply in_map_iff in Hr. destruct Hr as (k & <- & Hk). apply Sq in Hk. destruct (four_bounds k Hk) as (H3 & H2 & H1 & H0).
    split; [discriminate|]. assert (D : forall d, (d < 10)%nat -> figure d <> tab /\ figure d <> nl /\ figure d <> " "%char) by (intros d Hd; do 10 (destruct d as [|d]; [repeat split; discriminate|]); lia).
    split.
    + unfold line_fields. repeat apply Forall_cons; try apply Forall_nil; try (split; (intros X; repeat (destruct X as [X|X]; [discriminate X|]); exact X)); [|split; assumption].
      split; unfold four_digits; intros X; cbn [In] in X; repeat (destruct X as [X|X]; [revert X; first [apply (proj1 (D _ H3)) | apply (proj1 (D _ H2)) | apply (proj1 (D _ H1)) | apply (proj1 (D _ H0)) | apply (proj1 (proj2 (D _ H3))) | apply (proj1 (proj2 (D _ H2))) | apply (proj1 (proj2 (D _ H1))) | apply (proj1 (proj2 (D _ H0)))]|]); exact X.
    + intros X. unfold line_fields, four_digits in X. destruct (D (k / 1000)%nat H3) as (D1 & D2 & D3). apply Forall_inv in X. destruct X as [[E|E] _]; [exact (D3 E)|exact (D1 E)].
  - right. intros k Hk. exists (line_fields a 0). split; [apply in_map; apply in_seq; lia|]. cbn [line_fields List.length]. cbn [In] in Hk. lia.
  - rewrite !Cst, !map_map. split; [|split; [|split; [|split; [|split]]]]; apply tracked_map; intros i Hi.
    + apply Sq in Hi. exists (four_digits i). split; [apply fa_some; reflexivity|]. right. destruct (four_bounds i Hi) as (H3 & H2 & H1 & H0).
      split; [apply digits_present; [discriminate|]; unfold four_digits; repeat constructor; apply figure_digit; assumption|].
      exists (inject_Z (Z.of_nat i)). split; [apply four_value; exact Hi|]. f_equal. rewrite INR_IZR_INZ. unfold Q2R. cbn [Qnum Qden inject_Z]. field.
    + exists (lit "0"). split; [apply fa_some; reflexivity|]. right. split; [apply is_na_false; reflexivity|]. exists 0%Q. split; [apply numeral_value; eexists; split; [reflexivity|reflexivity]|]. f_equal. unfold Q2R. cbn. lra.
    + exists (lit "-3000"). split; [apply fa_some; reflexivity|]. right. split; [apply is_na_false; reflexivity|]. exists (-3000 # 1)%Q. split; [apply numeral_value; eexists; split; [reflexivity|reflexivity]|]. f_equal. unfold Q2R. cbn. lra.
    + exists a. split; [apply fa_some; reflexivity|]. right. split; [exact Ma|]. exists q. split; [exact Na|reflexivity].
    + exists (lit "100"). split; [apply fa_some; reflexivity|]. right. split; [apply is_na_false; reflexivity|]. exists (100 # 1)%Q. split; [apply numeral_value; eexists; split; [reflexivity|reflexivity]|]. f_equal. unfold Q2R. cbn. lra.
    + exists (lit "5"). split; [apply fa_some; reflexivity|]. right. split; [apply is_na_false; reflexivity|]. exists (5 # 1)%Q. split; [apply numeral_value; eexists; split; [reflexivity|reflexivity]|]. f_equal. unfold Q2R. cbn. lra.
Qed.

Lemma zero_reflected n z : reflected (repeat 0 n) z = 0.
Proof.
  unfold reflected. assert (N : forall k, nth k (repeat 0 n) 0 = 0) by (intros k; apply nth_repeat). rewrite !N. destruct (z <? 0)%Z; [ring|]. destruct (z <? _)%Z; [reflexivity|ring].
Qed.
Lemma constant_filter v n y i : script_filter_nan (repeat (Some v) n) = Ok y -> (i < n)%nat -> nth_error y i = Some (Some v).
Proof.
  intros E Hi. destruct (C95_missing (repeat (Some v) n)) as [S1 S2]. rewrite repeat_length in S1, S2.
  destruct (Nat.le_gt_cases n 1440) as [H|H]; [rewrite (S1 H) in E; discriminate|]. destruct (S2 H) as (y0 & E0 & Ly & M). assert (y0 = y) by congruence. subst y0. clear S1 S2 E0.
  destruct (nth_error y i) as [[a|]|] eqn:Ey.
  - do 2 f_equal. destruct C95_values as (h & [Hh _] & V). rewrite (V _ y (repeat v n) i a E); [|split; [rewrite !repeat_length; reflexivity|]|exact Ey].
    + replace (repeat v n) with (map (fun x => x + v) (repeat 0 n)) by (clear; induction n as [|n IH]; [reflexivity|cbn [repeat map]; f_equal; [ring|exact IH]]).
      rewrite fb_shift by (try exact Hh; rewrite repeat_length; assumption). unfold forwards_backwards. rewrite Rsum_eq0; [ring|]. intros j _. apply Rsum_eq0. intros l _. rewrite zero_reflected. ring.
    + intros k x Hk. assert (Hl : (k < n)%nat) by (rewrite <- (repeat_length (Some v) n); apply nth_error_Some; congruence). rewrite nth_error_repeat in Hk by exact Hl. rewrite nth_error_repeat by exact Hl. congruence.
  - exfalso. apply (M i Hi) in Ey. destruct Ey as (j & Hj & _). unfold missing in Hj. assert (Hl : (j < n)%nat) by (rewrite <- (repeat_length (Some v) n); apply nth_error_Some; congruence).
    rewrite nth_error_repeat in Hj by exact Hl. discriminate.
  - apply nth_error_None in Ey. lia.
Qed.

Definition case_segment (v : R) : list line_row := map (fun k => Line [] 0 None (Some (INR (1440 + k))) (Some 0) (Some v) None None) (seq 0 1441).
Definition case_points : list point := map (fun k => (0, INR (1440 + k))) (seq 0 1441).
Definition case_xs : list R := map INR (seq 0 4321).
Lemma case_xs_nth k : (k < 4321)%nat -> nth k case_xs 0 = INR k.
Proof. intros H. unfold case_xs. exact (L_Base.nth_map_seq R INR 4321 k 0 H). Qed.
Lemma case_distances : distances plane case_xs (repeat 0 4321) case_xs.
Proof.
  assert (L : len case_xs = 4321%nat) by (unfold case_xs; rewrite map_length, seq_length; reflexivity).
  split; [reflexivity|]. split; [rewrite repeat_length, L; reflexivity|]. split; [apply (case_xs_nth 0); lia|]. intros i Hi. rewrite L in Hi.
  cbn [plane g_s12 snd]. rewrite !case_xs_nth by lia. cbn [INR]. rewrite Rminus_0_r. symmetry. apply Rabs_right. apply Rle_ge, pos_INR.
Qed.
Lemma case_last : last case_xs 0 = INR 4320.
Proof. rewrite last_nth. assert (L : len case_xs = 4321%nat) by (unfold case_xs; rewrite map_length, seq_length; reflexivity). rewrite L. apply case_xs_nth. lia. Qed.
Lemma case_apart : apart case_xs.
Proof.
  assert (L : len case_xs = 4321%nat) by (unfold case_xs; rewrite map_length, seq_length; reflexivity). split; [|rewrite case_last; apply (lt_INR 0); lia].
  apply (proj2 (NoDup_nth case_xs 0)). intros i j Hi Hj E. rewrite L in Hi, Hj. rewrite !case_xs_nth in E by lia. apply INR_eq. exact E.
Qed.
Lemma case_extended : exists line, extended_line plane case_points = Ok (1440%nat, line).
Proof.
  assert (At : forall k, (k < 1441)%nat -> nth_error case_points k = Some (0, INR (1440 + k))).
  { intros k Hk. unfold case_points. rewrite nth_error_map, (nth_error_nth' _ 0%nat), seq_nth by (rewrite ?seq_length; lia). reflexivity. }
  assert (L : 1440 = g_s12 plane (0, INR (1440 + 0)) (0, INR (1440 + 1440))).
  { cbn [plane g_s12 snd]. rewrite <- minus_INR by lia. replace (1440 + 1440 - (1440 + 0))%nat with 1440%nat by lia. rewrite INR_IZR_INZ. rewrite Rabs_right by (apply Rle_ge, IZR_le; lia). reflexivity. }
  destruct (C86_extension plane case_points 1441 (0, INR (1440 + 0)) (0, INR (1440 + 1440)) 1440) as (m & line & E & M & _); [unfold case_points; rewrite map_length, seq_length; reflexivity|lia|apply At; lia|apply (At 1440%nat); lia|exact L|lra|].
  rewrite (M ltac:(lra)) in E. exists line. exact E.
Qed.
Lemma case_positions v : Forall2 (fun r p => l_lat r = Some (fst p) /\ l_lon r = Some (snd p)) (case_segment v) case_points.
Proof. unfold case_segment, case_points. generalize (seq 0 1441). intros l. induction l as [|k l IH]; [constructor|]. constructor; [split; reflexivity|exact IH]. Qed.
Lemma case_length v : len (case_segment v) = 1441%nat.
Proof. unfold case_segment. rewrite map_length, seq_length. reflexivity. Qed.
Lemma case_track a q : ~ S_Table.missing a -> number_value a q -> ~ In tab a -> ~ In nl a ->
  track_file (track_text a 4321) case_xs (repeat 0 4321) (repeat (Some (-3000)) 4321) (repeat (Some (Q2R q)) 4321) (repeat (Some 100) 4321) (repeat (Some 5) 4321).
Proof. intros. apply track_text_file; [lia|assumption..]. Qed.
Lemma case_xs_length : len case_xs = 4321%nat.
Proof. unfold case_xs. rewrite map_length, seq_length. reflexivity. Qed.

(** A segment with 9 mGal in a line with 7 mGal: 9 in the middle of the profile, 7 at its ends; nothing to correct. *)
Example C116_case : exists P f, rmba_script plane (case_segment 9) (fun _ => Some (track_text (lit "7") 4321)) (lit "tracked.llm") = Some (Ok P) /\
  f_anom P = map Some f /\ f_mba P = map Some f /\ f_rmba P = map Some f /\ nth 0 f 0 = 7 /\ nth 500 f 0 = 9 /\ nth 999 f 0 = 7.
Proof.
  destruct case_extended as (line & Ee).
  assert (T : track_file (track_text (lit "7") 4321) case_xs (repeat 0 4321) (repeat (Some (-3000)) 4321) (repeat (Some (Q2R (7 # 1))) 4321) (repeat (Some 100) 4321) (repeat (Some 5) 4321)).
  { apply case_track; [apply is_na_false; reflexivity|apply numeral_value; eexists; split; reflexivity|intros [X|[]]; discriminate X|intros [X|[]]; discriminate X]. }
  assert (Hn : (1440 < len (case_segment 9))%nat) by (rewrite case_length; lia). assert (Hm : (1440 + len (case_segment 9) <= len case_xs + 480)%nat) by (rewrite case_length, case_xs_length; lia).
  destruct (C116_flat plane (case_segment 9) case_points 1440 line (fun _ => Some (track_text (lit "7") 4321)) (lit "tracked.llm") _ _ _ _ _ _ _ _ case_xs (case_positions 9) Ee Hn eq_refl T ltac:(lra) Hm case_distances case_apart) as (P & f & E & E1 & E2 & E3).
  { intros k _ X. assert (Hl : (k < 4321)%nat) by (rewrite <- (repeat_length (Some (Q2R (7 # 1))) 4321); apply nth_error_Some; congruence). rewrite nth_error_repeat in X by exact Hl. discriminate. }
  { intros r Hr. apply in_map_iff in Hr. destruct Hr as (k & <- & _). discriminate. }
  exists P, f. do 4 (split; [assumption|]).
  destruct (C116_profile plane (case_segment 9) case_points 1440 line (fun _ => Some (track_text (lit "7") 4321)) (lit "tracked.llm") _ _ _ _ _ _ _ case_xs (case_positions 9) Ee Hn eq_refl T Hm case_distances case_apart)
    as (P' & anom & ffaa & E' & _ & Ef & La & V1 & V2 & _ & _ & (Lf & Kv & Ev) & _).
  assert (P' = P) by congruence. subst P'. clear E E2 E3 E' T. rewrite E1 in *. rewrite case_length in V1, V2. rewrite case_last in Ev, Kv.
  assert (Df : map l_faa (case_segment 9) = repeat (Some 9) 1441).
  { unfold case_segment. rewrite map_map. cbn [l_faa].
    assert (G : forall n s, map (fun _ : nat => Some 9) (seq s n) = repeat (Some 9) n) by (clear; intros n; induction n as [|n IH]; intros s; [reflexivity|cbn [repeat seq map]; f_equal; apply IH]). apply G. }
  rewrite Df in Ef.
  assert (Q7 : Q2R (7 # 1) = 7) by (unfold Q2R; cbn; lra). rewrite Q7 in V2.
  assert (At7 : forall k, (k < 1920 \/ 2401 <= k < 4321)%nat -> nth k anom None = Some 7).
  { intros k Hk. apply nth_error_nth. rewrite V2 by lia. apply nth_error_repeat. lia. }
  assert (At9 : forall k, (1920 <= k < 2401)%nat -> nth k anom None = Some 9).
  { intros k Hk. apply nth_error_nth. replace k with (1440 + (k - 1440))%nat by lia. rewrite V1 by lia. apply (constant_filter 9 1441); [exact Ef|lia]. }
  assert (Fn : forall j v, (j < 1000)%nat -> nth j (map Some f) None = Some v -> nth j f 0 = v).
  { intros j v Hj X. rewrite (nth_indep _ None (Some 0)) in X by lia. rewrite map_nth in X. congruence. }
  assert (Go : forall j k v, (j < 1000)%nat -> (S k < 4321)%nat -> INR k < INR j * INR 4320 / 999 < INR (S k) -> nth k anom None = Some v -> nth (S k) anom None = Some v -> nth j f 0 = v).
  { intros j k v Hj Hk Hb K1 K2. specialize (Ev j k (S k) Hj). rewrite case_xs_length, !case_xs_nth in Ev by lia.
    assert (Nb : forall x, In x case_xs -> ~ INR k < x < INR (S k)).
    { intros x Ix [B1 B2]. apply In_nth with (d := 0) in Ix. destruct Ix as (q & Hq & Eq). rewrite case_xs_length in Hq. rewrite case_xs_nth in Eq by exact Hq. subst x. apply INR_lt in B1, B2. lia. }
    specialize (Ev ltac:(lia) Hk Hb Nb). rewrite K1, K2 in Ev. destruct Ev as (u & Eu & On). apply Fn in Eu; [|exact Hj]. rewrite Eu.
    unfold on_line in On. rewrite S_INR in On, Hb. nra. }
  assert (I4320 : INR 4320 = 4320) by (rewrite INR_IZR_INZ; reflexivity).
  split; [|split].
  - apply Fn; [lia|]. rewrite (Kv 0%nat 0%nat); [apply At7; lia|lia|rewrite case_xs_length; lia|]. rewrite case_xs_nth by lia. cbn [INR]. lra.
  - assert (I1 : INR 2162 = 2162) by (rewrite INR_IZR_INZ; reflexivity). assert (I2 : INR 500 = 500) by (rewrite INR_IZR_INZ; reflexivity).
    apply (Go 500%nat 2162%nat); [lia|lia| |apply At9; lia|apply At9; lia]. rewrite (S_INR 2162), I1, I2, I4320. split; lra.
  - assert (I2 : INR 999 = 999) by (rewrite INR_IZR_INZ; reflexivity). apply Fn; [lia|]. rewrite (Kv 999%nat 4320%nat); [apply At7; lia|lia|rewrite case_xs_length; lia|]. rewrite case_xs_nth by lia. rewrite I2. field.
Qed.
(** With 8 and 10 mGal instead everything is higher by 1 mGal but the thickness; without the file there is nothing. *)
Example C116_offset_case : exists P P', rmba_script plane (case_segment 9) (fun _ => Some (track_text (lit "7") 4321)) (lit "tracked.llm") = Some (Ok P) /\
  rmba_script plane (case_segment 10) (fun _ => Some (track_text (lit "8") 4321)) (lit "t") = Some (Ok P') /\ f_thick P' = f_thick P /\ f_rmba P' = map (option_map (fun x => x + 1)) (f_rmba P) /\
  rmba_script plane (case_segment 9) (fun _ => None) (lit "t") = Some (Raise FileNotFoundError).
Proof.
  destruct C116_case as (P & f & E & _).
  assert (T : track_file (track_text (lit "7") 4321) case_xs (repeat 0 4321) (repeat (Some (-3000)) 4321) (repeat (Some (Q2R (7 # 1))) 4321) (repeat (Some 100) 4321) (repeat (Some 5) 4321)).
  { apply case_track; [apply is_na_false; reflexivity|apply numeral_value; eexists; split; reflexivity|intros [X|[]]; discriminate X|intros [X|[]]; discriminate X]. }
  assert (T' : track_file (track_text (lit "8") 4321) case_xs (repeat 0 4321) (repeat (Some (-3000)) 4321) (repeat (Some (Q2R (8 # 1))) 4321) (repeat (Some 100) 4321) (repeat (Some 5) 4321)).
  { apply case_track; [apply is_na_false; reflexivity|apply numeral_value; eexists; split; reflexivity|intros [X|[]]; discriminate X|intros [X|[]]; discriminate X]. }
  assert (Sh : repeat (Some (Q2R (8 # 1))) 4321 = map (option_map (fun x => x + 1)) (repeat (Some (Q2R (7 # 1))) 4321)).
  { generalize 4321%nat. intros n. induction n as [|n IH]; [reflexivity|]. cbn [repeat map option_map]. f_equal; [|exact IH]. f_equal. unfold Q2R. cbn. lra. }
  rewrite Sh in T'.
  assert (Fd : Forall2 (fun r r' => l_lat r' = l_lat r /\ l_lon r' = l_lon r /\ l_faa r' = option_map (fun x => x + 1) (l_faa r)) (case_segment 9) (case_segment 10)).
  { unfold case_segment. generalize (seq 0 1441). intros l. induction l as [|k l IH]; [constructor|]. constructor; [|exact IH]. cbn [l_lat l_lon l_faa option_map]. repeat split. f_equal. lra. }
  assert (H2 : (2 <= len case_xs)%nat) by (rewrite case_xs_length; lia).
  destruct (C116_offset plane (case_segment 9) (case_segment 10) (fun _ => Some (track_text (lit "7") 4321)) (lit "tracked.llm") (track_text (lit "7") 4321) (fun _ => Some (track_text (lit "8") 4321)) (lit "t") (track_text (lit "8") 4321)
    _ _ _ _ _ _ case_xs 1 P Fd eq_refl T eq_refl T' case_distances case_apart H2 E) as (P' & E' & _ & _ & Th & Sf).
  exists P, P'. split; [exact E|]. split; [exact E'|]. split; [exact Th|]. split; [apply (Sf f_rmba); cbn; auto|].
  destruct case_extended as (line & Ee). apply (proj1 (proj2 (C116_failures plane (case_segment 9) case_points (fun _ => None) (lit "t") (case_positions 9)) 1440%nat line Ee)). reflexivity.
Qed.
