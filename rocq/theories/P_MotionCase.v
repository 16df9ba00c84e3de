(** A case of C113: a ship lying still for 1441 seconds, its pitch recorded until a second after the start. *)
From Coq Require Import ZArith QArith Reals Qreals Lra Lia Ascii String Arith Bool Sorted Permutation List.
From Verif Require Import M_Py M_Np M_Str M_Cal M_Ini M_Nmea M_ReadNav M_Table M_Other M_Serial M_Bgm M_Dgs M_Faa M_Nan M_Script M_Mru M_Coh M_Motion.
From Verif Require Import S_Base S_Str S_Cal S_Nmea S_ReadNav S_Table S_Bgm S_Faa S_Nan S_Script S_Other S_Serial S_Mru S_Coh S_Motion.
From Verif Require Import L_Base L_Np L_Str L_Cal L_Table L_Other L_Coh L_Script P_Nmea P_Serial P_Script P_Equator P_Meters P_Mru P_Coh P_Motion.
Import ListNotations.
Open Scope Z_scope.

(** 1441 records from 10:15:00 on, [dgs_record] of P_Meters.v *)
(** 1000 records of the motion from 09:58:22 to 10:15:01: pitch -1 and 2.5 in turn, roll 1, heave 0 *)
Definition mru_record (k : N) : str := let s := (9 * 3600 + 58 * 60 + 22 + k)%N in
  lit "2024-02-29T" ++ two_digits (s / 3600) ++ lit ":" ++ two_digits (s / 60 mod 60) ++ lit ":" ++ two_digits (s mod 60) ++ lit "Z,$PASHR," ++
  (if N.even k then lit "-1" else lit "2.5") ++ lit ",1,0" ++ [nl].
Definition mru_text : str := concat (map mru_record (from 0 1000)) ++ lit "end".
Definition mru_path : str := lit "d/mru-2024-02-29.txt".
Definition motion_files (p : str) : option str := if str_eqb p (lit "dgs") then Some dgs_text else if str_eqb p mru_path then Some mru_text else case_files p.
Definition motion_specs : feed_specs str := mk_specs str [(lit "PASHR", lit "$PASHR,{Pitch:g},{Roll:g},{Heave:g}")] [].
(** texts such as "2024-02-29T10:15:01Z," *)
Definition iso_second (s : str) : option Q :=
  match s, numeral s with
  | _ :: _, None => match rev s with _ :: _ :: s0 :: s1 :: _ :: m0 :: m1 :: _ :: h0 :: h1 :: _ =>
      Some (inject_Z (1709164800 + 3600 * (10 * digit h1 + digit h0) + 60 * (10 * digit m1 + digit m0) + 10 * digit s1 + digit s0)) | _ => None end
  | _, _ => None
  end.
Definition iso_dates (l : list cell) : res (list cell) :=
  mapM (fun c => match c with Txt s => match iso_second s with Some t => Ok (Time t) | None => Raise ValueError end | _ => Ok NaN end) l.
Definition second_stamp (s : str) (t : Q) : Prop := iso_second s = Some t.
Lemma second_converter : converter iso_dates.
Proof.
  intros l. induction l as [|c l IH]; intros ts E; cbn [iso_dates mapM] in E; [injection E as <-; split; [reflexivity|constructor]|].
  change (mapM _ l) with (iso_dates l) in E. match type of E with (do b <- ?x; _) = _ => destruct x as [b|] eqn:Eb end; [|discriminate]. cbn [bind] in E.
  destruct (iso_dates l) as [bs|]; [|discriminate]. cbn [bind] in E. injection E as <-. destruct (IH _ eq_refl) as [L F]. split; [cbn [List.length]; congruence|]. constructor; [|exact F].
  destruct c as [| |s|]; try (injection Eb as <-; left; reflexivity). destruct (iso_second s); [|discriminate]. injection Eb as <-. right. eexists. reflexivity.
Qed.
Lemma second_reads : reads second_stamp iso_dates.
Proof.
  split.
  - intros s t H. unfold second_stamp, iso_second in H. destruct s as [|a s]; [discriminate|]. destruct (numeral (a :: s)) as [q|] eqn:E; [discriminate|]. split; [discriminate|].
    intros Hn. pose proof (feed_cell_spec (a :: s)) as C. unfold numeric in C. rewrite E in C. inversion C as [| |? _ N]. apply N. exact Hn.
  - induction 1 as [|s t l ts H _ IH]; [reflexivity|]. cbn [map iso_dates mapM]. unfold second_stamp in H. rewrite H. cbn [bind]. change (mapM _ (map Txt l)) with (iso_dates (map Txt l)). rewrite IH. reflexivity.
Qed.

(** *** The tables *)
Definition motion_start : Z := 1709164800 + 9 * 3600 + 58 * 60 + 22.
Definition motion_ts : list Q := map (fun k => inject_Z (motion_start + Z.of_nat k)) (seq 0 1000).
Definition pitch (k : nat) : Q := if Nat.even k then -1 # 1 else 25 # 10.
Definition motion_M : frame :=
  [(lit "Pitch:g", map (fun k => Num (pitch k)) (seq 0 1000)); (lit "Roll:g", repeat (Num 1) 1000); (lit "Heave:g", repeat (Num 0) 1000);
   (lit "date_time", map Time motion_ts); (lit "tsec", map Num motion_ts)].
Lemma motion_mru : read_mru iso_dates motion_specs motion_files [mru_path] = Ok motion_M.
Proof. vm_cast_no_check (@eq_refl (res frame) (Ok motion_M)). Qed.
Lemma motion_good : dictionary (formats motion_specs) /\ dictionary (descriptions motion_specs) /\ good_template motion_specs feed.
Proof.
  split; [repeat constructor; intros []|]. split; [constructor|]. intros template names [E|[]] H. injection E as <-. apply template_spec in H. subst names. vm_compute. repeat constructor; cbn [In]; intros H; repeat (destruct H as [H|H]; [discriminate|]); contradiction.
Qed.

(** the stamps of a file, by computation *)
Lemma day_file_by fsys p text d ts : fsys p = Some text -> text <> [] -> valid_date d ->
  (do ls <- mapM (fun ln => do _ <- row_read (lit "$" ++ feed) (split (lit "$" ++ feed) ln); Ok (iso_second (hd [] (split (lit "$" ++ feed) ln)))) (tagged_lines feed (readlines text)); Ok ls) = Ok (map Some ts) ->
  Sorted Qle ts -> Forall (fun s => inject_Z ((ord d - epoch_ord) * 86400) <= s /\ s < inject_Z ((ord d - epoch_ord + 1) * 86400))%Q ts -> day_file second_stamp fsys d p.
Proof.
  intros Ep Hn V E So F. set (kept := tagged_lines feed (readlines text)) in *.
  assert (Q : exists rows, Forall2 (feed_row feed) kept rows /\ Forall2 second_stamp (map fst rows) ts).
  { assert (Tg : tagged feed text kept) by (apply tagged_exists; exact Hn). clear - E. clearbody kept. revert ts E. induction kept as [|ln kept IH]; intros ts E; cbn [mapM bind] in E.
    - destruct ts; [|discriminate]. exists []. split; constructor.
    - destruct (row_read (lit "$" ++ feed) (split (lit "$" ++ feed) ln)) as [l|e] eqn:El; [|discriminate]. cbn [bind] in E. match type of E with context [mapM ?f kept] => set (g := f) in *; destruct (mapM g kept) as [ls|e] eqn:Em; [|discriminate] end.
      cbn [bind] in E. destruct ts as [|t ts]; [discriminate|]. cbn [map] in E. assert (E1 : iso_second (hd [] (split (lit "$" ++ feed) ln)) = Some t) by congruence. assert (E2 : ls = map Some ts) by congruence.
      destruct (IH ts) as (rows & R1 & R2); [rewrite E2; reflexivity|]. exists ((hd [] (split (lit "$" ++ feed) ln), l) :: rows). split.
      + constructor; [|exact R1]. apply row_read_spec. exists l. split; [exact El|reflexivity].
      + cbn [map fst]. constructor; [exact E1|exact R2]. }
  destruct Q as (rows & R1 & R2). exists text, kept, rows, ts, (ord d - epoch_ord). split; [exact Ep|]. split; [apply tagged_exists; exact Hn|]. split; [exact R1|]. split; [exact R2|]. split; [exact So|]. split; [apply day_number_ord; exact V|exact F].
Qed.
Lemma ts_sorted n a : Sorted Qle (map (fun k => inject_Z (motion_start + Z.of_nat k)) (seq a n)).
Proof.
  revert a. induction n as [|n IH]; intros a; [constructor|]. cbn [seq map]. constructor; [apply IH|]. destruct n; [constructor|]. cbn [seq map]. constructor. rewrite <- Zle_Qle. lia.
Qed.
Lemma motion_day : day_file second_stamp motion_files (2024, 2, 29) mru_path.
Proof.
  apply (day_file_by motion_files mru_path mru_text (2024, 2, 29) motion_ts); [reflexivity|unfold mru_text; intros H; apply app_eq_nil in H; destruct H; discriminate|apply valid_date_iff; vm_compute; split; split; discriminate| |apply ts_sorted|].
  - vm_cast_no_check (@eq_refl (res (list (option Q))) (Ok (map Some motion_ts))).
  - apply Forall_forall. intros s H. apply in_map_iff in H. destruct H as (k & <- & Hk). apply in_seq in Hk. rewrite <- Zle_Qle, <- Zlt_Qlt. change ((ord (2024, 2, 29) - epoch_ord) * 86400)%Z with 1709164800. change ((ord (2024, 2, 29) - epoch_ord + 1) * 86400)%Z with 1709251200. unfold motion_start. lia.
Qed.
Lemma motion_provided : Forall2 (provides motion_files (lit "Atlantis") gp None) [lit "n"] [case_data].
Proof. constructor; [|constructor]. exists case_nav. eexists. split; [reflexivity|]. split; [exact case_lines|exact case_file]. Qed.
Lemma motion_talker : talker_for (lit "Atlantis") (Some (lit "GPGGA")) gp.
Proof. reflexivity. Qed.
Definition motion_read : res (option frame) := read_dgs_laptop motion_files iso_dates [lit "dgs"] (lit "Atlantis") None.
Lemma cells_are_ok l : forall x, cells_are l x = true -> l = map number x.
Proof.
  induction l as [|c l IH]; intros [|v x] H; cbn [cells_are] in H; try reflexivity; try (destruct c; discriminate); try discriminate. cbn [map].
  destruct c as [q| |s|t]; try discriminate.
  - destruct v as [p|]; [|discriminate]. apply andb_true_iff in H. destruct H as [H H3]. apply andb_true_iff in H. destruct H as [H1 H2]. apply Z.eqb_eq in H1. apply Pos.eqb_eq in H2.
    rewrite (IH x H3). destruct q as [qn qd], p as [pn pd]. cbn in H1, H2. subst. reflexivity.
  - destruct v; [discriminate|]. rewrite (IH x H). reflexivity.
Qed.
Lemma column_is_ok r c x : column_is r c x = true -> column_of r c = Some (map number x).
Proof. unfold column_is. destruct (column_of r c) as [l|]; [|discriminate]. intros H. f_equal. apply cells_are_ok. exact H. Qed.
Lemma dgs_check_ok r : dgs_check r = true -> good_table r day_us 9800.25 = true /\ column_of r (lit "vcc") = Some (map number (map case_vcc (seq 0 1441))) /\
  column_of r (lit "ve") = Some (map number (map (fun _ => Some 4%Q) (seq 0 1441))) /\
  column_of r (lit "al") = Some (map number (map case_al (seq 0 1441))) /\ column_of r (lit "ax") = Some (map number (map (fun _ => Some 13%Q) (seq 0 1441))).
Proof.
  unfold dgs_check. generalize (map case_vcc (seq 0 1441)) (map case_al (seq 0 1441)) (map (fun _ : nat => Some 4%Q) (seq 0 1441)) (map (fun _ : nat => Some 13%Q) (seq 0 1441)). generalize day_us.
  intros us x1 x2 x3 x4 H. apply andb_true_iff in H. destruct H as [H H5]. apply andb_true_iff in H. destruct H as [H H4]. apply andb_true_iff in H. destruct H as [H H3].
  apply andb_true_iff in H. destruct H as [H1 H2]. split; [exact H1|]. split; [exact (column_is_ok _ _ _ H2)|]. split; [exact (column_is_ok _ _ _ H3)|]. split; [exact (column_is_ok _ _ _ H4)|exact (column_is_ok _ _ _ H5)].
Qed.
Lemma motion_checked : dgs_check motion_read = true.
Proof. unfold motion_read. rewrite (same_read motion_files day_files iso_dates day_dates (lit "dgs") eq_refl). exact day_checked. Qed.

(** *** The curves *)
Lemma first_differs N s K x a b : (2 <= N)%nat -> (0 < K)%nat -> (forall j, (j < N)%nat -> nth j x 0 = if (j =? 0)%nat then a else b)%R -> (a <> b)%R -> (0 < power N s K x 0)%R.
Proof.
  intros HN HK Hx Hab. unfold power. eapply Rlt_le_trans; [|apply (Rsum_le_single K 0%nat (fun k => four_re N s x 0 k ^ 2 + four_im N s x 0 k ^ 2)%R HK); intros i _; apply Rplus_le_le_0_compat; apply pow2_ge_0].
  pose proof (lt_0_INR N ltac:(lia)) as PN.
  assert (T0 : taper N 0 = 0%R) by (unfold taper; replace (2 * PI * INR 0 / INR N)%R with 0%R by (cbn [INR]; field; lra); rewrite cos_0; field).
  assert (Tn : forall j, (0 <= taper N j)%R) by (intros j; unfold taper; pose proof (COS_bound (2 * PI * INR j / INR N)); lra).
  assert (St : (0 < Rsum N (taper N))%R) by (eapply Rlt_le_trans; [apply (taper_1 N HN)|apply (Rsum_le_single N 1%nat (taper N)); [lia|intros i _; apply Tn]]).
  set (m := seg_mean x N (0 * s)).
  assert (Em : m = (b + (a - b) / INR N)%R).
  { unfold m, seg_mean. rewrite (Rsum_ext N _ (fun j => b + (if (j =? 0)%nat then (a - b) else 0)))%R.
    - rewrite Rsum_plus, Rsum_const. destruct N as [|N]; [lia|].
      assert (Q : forall n, Rsum (S n) (fun j => if (j =? 0)%nat then (a - b) else 0)%R = (a - b)%R). { induction n as [|n IH]; [cbn [Rsum Nat.eqb]; ring|]. change (Rsum (S (S n)) ?f) with (Rsum (S n) f + f (S n))%R. rewrite IH. cbn [Nat.eqb]. ring. }
      rewrite Q. field. lra.
    - intros j Hj. rewrite Nat.mul_0_l, Nat.add_0_l, Hx by exact Hj. destruct (j =? 0)%nat; ring. }
  assert (Ef : four_re N s x 0 0 = (- ((a - b) / INR N) * Rsum N (taper N))%R).
  { unfold four_re. fold m. rewrite <- Rsum_scal. apply Rsum_ext. intros j Hj. rewrite Nat.mul_0_l, Nat.add_0_l, Hx by exact Hj. replace (2 * PI * INR 0 * INR j / INR N)%R with 0%R by (cbn [INR]; field; lra). rewrite cos_0, Em.
    destruct j as [|j]; cbn [Nat.eqb]; [rewrite T0; ring|field; lra]. }
  rewrite Ef. assert (Q : ((a - b) / INR N <> 0)%R) by (unfold Rdiv; apply Rmult_integral_contrapositive_currified; [lra|apply Rinv_neq_0_compat; lra]).
  assert (Q2 : (- ((a - b) / INR N) * Rsum N (taper N) <> 0)%R) by (apply Rmult_integral_contrapositive_currified; lra).
  pose proof (pow2_ge_0 (four_im N s x 0 0)). assert (0 < (- ((a - b) / INR N) * Rsum N (taper N)) ^ 2)%R by (rewrite <- Rsqr_pow2; apply Rlt_0_sqr; exact Q2). lra.
Qed.
Lemma affine_msc n N s K p q y f : segmentation n N s K -> len y = n -> (0 < n)%nat -> (p <> 0)%R -> (power N s K y f <> 0)%R ->
  power N s K (map (fun t => p * t + q) y)%R f <> 0%R /\ msc N s K (map (fun t => p * t + q) y)%R y f = 1%R.
Proof.
  intros Sg L Hn Hp Py. destruct (spectra_affine n N s K p q 1 0 y y f Sg L L Hn) as (E1 & _ & E3 & E4).
  assert (Ey : map (fun v => 1 * v + 0)%R y = y). { clear. induction y as [|a y IH]; [reflexivity|]. cbn [map]. f_equal; [ring|exact IH]. }
  rewrite Ey in E3, E4. assert (Cy : cospec N s K y y f = power N s K y f) by (unfold cospec, power; apply Rsum_ext; intros k _; ring).
  assert (Qy : quadspec N s K y y f = 0%R). { unfold quadspec. rewrite (Rsum_ext K _ (fun _ => 0%R)); [|intros k _; ring]. rewrite Rsum_const. ring. }
  assert (P2 : (p ^ 2 <> 0)%R) by (apply pow_nonzero; exact Hp). split; [rewrite E1; apply Rmult_integral_contrapositive_currified; assumption|].
  unfold msc. rewrite E1, E3, E4, Cy, Qy. field. split; assumption.
Qed.
Lemma day_order idx : time_order day_us idx -> idx = seq 0 1441.
Proof.
  intros O. assert (P : Permutation day_us (map (fun k => 1709201700000000 + 1000000 * Z.of_nat k) (seq 0 (len day_us)))).
  { rewrite day_length. unfold day_us. replace (map (fun k => 1709201700000000 + 1000000 * Z.of_nat k) (seq 0 1441)) with (map (fun k => (1709201700 + Z.of_nat k) * 1000000) (seq 0 1441)); [apply Permutation_refl|]. apply map_ext. intros k. lia. }
  pose proof (even_order day_us idx 1709201700000000 1000000 eq_refl O P) as E. rewrite day_length in E.
  assert (Bi : Forall (fun i => (i < 1441)%nat) idx). { apply permutation_below. rewrite <- day_length. exact (proj1 O). }
  assert (V : forall i, (i < 1441)%nat -> nth i day_us 0 = 1709201700000000 + 1000000 * Z.of_nat i).
  { intros i Hi. unfold day_us. rewrite (nth_indep _ 0 ((fun k => (1709201700 + Z.of_nat k) * 1000000) 0%nat)) by (rewrite map_length, seq_length; exact Hi). rewrite (map_nth (fun k => (1709201700 + Z.of_nat k) * 1000000)), seq_nth by exact Hi. lia. }
  clear - E Bi V. generalize dependent (seq 0 1441). induction Bi as [|i idx Hi _ IH]; intros [|j l] E; try discriminate E; [reflexivity|]. cbn [map] in E. rewrite (V i Hi) in E.
  assert (E1 : 1709201700000000 + 1000000 * Z.of_nat i = 1709201700000000 + 1000000 * Z.of_nat j) by congruence.
  assert (E2 : map (fun i => nth i day_us 0) idx = map (fun k => 1709201700000000 + 1000000 * Z.of_nat k) l) by congruence.
  f_equal; [lia|apply IH; exact E2].
Qed.

Lemma nth_map_seq_at (A : Type) (f : nat -> A) n i d : (i < n)%nat -> nth i (map f (seq 0 n)) d = f i.
Proof. intros H. rewrite (nth_indep _ d (f 0%nat)) by (rewrite map_length, seq_length; exact H). rewrite map_nth, seq_nth by exact H. reflexivity. Qed.
Lemma column_unique T n c v w : table T n -> has_column T c v -> has_column T c w -> v = w.
Proof. intros (N & _) H1 H2. pose proof (column_has _ _ _ N H1) as E1. pose proof (column_has _ _ _ N H2) as E2. congruence. Qed.
Lemma numbers_inj l l' : map number l = map number l' -> l = l'.
Proof.
  revert l'. induction l as [|a l IH]; intros [|b l'] E; try discriminate; [reflexivity|]. cbn [map] in E. assert (E1 : number a = number b) by congruence. assert (E2 : map number l = map number l') by congruence.
  f_equal; [destruct a, b; try discriminate; [cbn [number] in E1; congruence|reflexivity]|apply IH; exact E2].
Qed.
Lemma motion_at i : (i < 1000)%nat -> nth i (map Q2R motion_ts) 0%R = (IZR motion_start + INR i)%R.
Proof.
  intros Hi. unfold motion_ts. rewrite map_map. rewrite nth_map_seq_at by exact Hi. unfold Q2R, inject_Z. cbn [Qnum Qden]. rewrite plus_IZR, <- INR_IZR_INZ. field.
Qed.
Lemma case_envelope env vs : envelope (map (fun i => IZR (nth i day_us 0%Z) / 1000000)%R (seq 0 1441)) (map Q2R motion_ts) (map real vs) env -> vs = map (fun k => Some (pitch k)) (seq 0 1000) ->
  len env = 1441%nat /\ forall i, (i < 1441)%nat -> nth i env 0%R = if (i =? 0)%nat then 0%R else (5 / 2)%R.
Proof.
  intros (L & V) Ev. rewrite map_length, seq_length in L. split; [exact L|]. intros i Hi. rewrite map_length, seq_length in V.
  assert (Lm : len (map Q2R motion_ts) = 1000%nat) by (unfold motion_ts; rewrite !map_length, seq_length; reflexivity).
  assert (Ti : nth i (map (fun i => IZR (nth i day_us 0%Z) / 1000000)%R (seq 0 1441)) 0%R = (IZR motion_start + INR (998 + i))%R).
  { rewrite nth_map_seq_at by exact Hi. unfold day_us. rewrite nth_map_seq_at by exact Hi. rewrite mult_IZR, plus_IZR, plus_INR, <- INR_IZR_INZ. change motion_start with 1709200702. rewrite (INR_IZR_INZ 998). change (Z.of_nat 998) with 998. lra. }
  destruct (V i _ Hi Ti) as (_ & W). rewrite Lm in W.
  assert (Cm : forall j, complete (map real vs) j <-> (j = 999)%nat).
  { intros j. unfold complete. rewrite Ev, map_map. split.
    - intros (Hj & Q). destruct (le_lt_dec j 999) as [H|H]; [lia|]. exfalso. apply (Q j ltac:(lia)). apply nth_overflow. rewrite map_length, seq_length. lia.
    - intros ->. split; [lia|]. intros j Hj. rewrite nth_map_seq_at by lia. discriminate. }
  assert (I9 : INR 999 = (INR 998 + 1)%R) by (rewrite <- S_INR; reflexivity).
  destruct i as [|i]; cbn [Nat.eqb].
  - change (998 + 0)%nat with 998%nat in W. destruct (W 998%nat ltac:(lia)) as (W1 & _); [rewrite motion_at by lia; apply Rle_refl|intros _; rewrite motion_at by lia; rewrite I9; lra|].
    apply (proj2 (W1 (or_introl (eq_sym (motion_at 998 ltac:(lia)))))). rewrite Cm. lia.
  - destruct (W 999%nat ltac:(lia)) as (W1 & _); [rewrite motion_at by lia; rewrite (plus_INR 998), (S_INR i); pose proof (pos_INR i); rewrite I9; lra|intros H; lia|].
    destruct (proj1 (W1 (or_intror eq_refl)) (proj2 (Cm 999%nat) eq_refl)) as (m & (M1 & M2) & ->). rewrite Ev, map_map in M1, M2.
    assert (Pv : forall k, real (Some (pitch k)) = Some (if Nat.even k then -1 else 5 / 2)%R). { intros k. unfold pitch, real. destruct (Nat.even k); f_equal; unfold Q2R; cbn [Qnum Qden]; lra. }
    destruct (M1 999%nat ltac:(lia)) as (v & Hv & Lv). rewrite nth_map_seq_at in Hv by lia. rewrite Pv in Hv. change (Nat.even 999) with false in Hv. cbn iota in Hv.
    destruct M2 as (k & Hk & Hm). rewrite nth_map_seq_at in Hm by lia. rewrite Pv in Hm.
    assert (v = (5 / 2)%R) by congruence. assert (m = (if Nat.even k then -1 else 5 / 2)%R) by congruence. destruct (Nat.even k); lra.
Qed.
Lemma nth_repeat_at (A : Type) (a : A) n i d : (i < n)%nat -> nth i (repeat a n) d = a.
Proof. revert i. induction n as [|n IH]; intros [|i] H; cbn [repeat nth]; try lia; [reflexivity|apply IH; lia]. Qed.
Lemma F2_cons (A B : Type) (P : A -> B -> Prop) a l m : Forall2 P (a :: l) m -> exists b r, m = b :: r /\ P a b /\ Forall2 P l r.
Proof. intros H. inversion H as [|x b l' r H1 H2]; subst. exists b, r. auto. Qed.
Strategy expand [motion_read].
Example C113_case : exists figures curves freq coh, 
  motion_script insertion_sort motion_files iso_dates (lit "Atlantis") [lit "n"] [lit "dgs"] 970000 motion_specs [mru_path] = Ok figures /\
  map fst figures = [lit "Pitch"; lit "Roll"; lit "Heave"] /\ nth_error figures 0 = Some (lit "Pitch", curves) /\ map fst curves = [lit "vcc"; lit "ve"; lit "al"; lit "ax"] /\
  nth_error curves 0 = Some (lit "vcc", (freq, coh)) /\ len freq = 129%nat /\ len coh = 129%nat /\ nth 3 freq 0%R = (3 / 256)%R /\ nth 0 coh None = Some 1%R /\
  forall k c, (k = 1 \/ k = 2)%nat -> nth_error curves k = Some c -> forall f, (f < 129)%nat -> nth_error (snd (snd c)) f = Some None.
Proof.
  destruct (dgs_check_ok _ motion_checked) as (H0 & H1 & H2 & H3 & H4). destruct (good_table_ok _ _ _ H0) as (T & gs & Er & Mt & _). clear H0. rewrite Er in H1, H2, H3, H4. unfold column_of in H1, H2, H3, H4. apply column_some in H1, H2, H3, H4. unfold motion_read in Er.
  assert (L3 : (1440 < len day_us)%nat) by (rewrite day_length; lia).
  assert (TM : table motion_M 1000%nat).
  { split; [|split; [discriminate|]].
    - unfold motion_M. cbn [map fst]. repeat constructor; cbn [In]; intros H; repeat (destruct H as [H|H]; [discriminate|]); contradiction.
    - unfold motion_M, motion_ts. repeat constructor; cbn [snd]; rewrite ?map_length, ?repeat_length, ?seq_length; reflexivity. }
  assert (HP : has_column motion_M (lit "Pitch:g") (map number (map (fun k => Some (pitch k)) (seq 0 1000)))) by (rewrite map_map; left; reflexivity).
  destruct motion_good as (G1 & G2 & G3).
  destruct (C113_curves str insertion_sort motion_files iso_dates (lit "Atlantis") gp [lit "n"] [case_data] [lit "dgs"] T day_us gs 970000%R motion_specs second_stamp (lit "d/mru-") [(mru_path, (2024, 2, 29))] motion_M 999%nat
    insertion_sort_sorts case_ship motion_talker motion_provided Er Mt L3 G1 G2 G3 second_converter second_reads) as (idx & ts & figures & O & Hts & _ & Es & F).
  - constructor; [|constructor]. cbn [fst snd]. split; [|split; [apply valid_date_iff; vm_compute; split; split; discriminate|exact motion_day]].
    exact (dated_day (lit "d/mru-") (lit "2024") (lit "02") (lit "29") 2024 2 29 (lit ".txt") eq_refl eq_refl eq_refl eq_refl eq_refl eq_refl eq_refl).
  - repeat constructor. intros [].
  - exact motion_mru.
  - exact TM.
  - assert (Rep : forall q, exists vs, repeat (Num q) 1000 = map number vs) by (intros q; exists (repeat (Some q) 1000); generalize 1000%nat; intros k; induction k as [|k IHk]; [reflexivity|]; cbn [repeat map]; rewrite <- IHk; reflexivity).
    intros m [<-|[<-|[<-|[]]]]; [eexists; exact HP| |]; [destruct (Rep 1%Q) as (vs & Ev)|destruct (Rep 0%Q) as (vs & Ev)]; exists vs; rewrite <- Ev; [right; left; reflexivity|right; right; left; reflexivity].
  - intros c [<-|[<-|[<-|[<-|[]]]]]; eexists; eassumption.
  - apply day_order in O. subst idx.
    assert (ts = motion_ts).
    { assert (Q : has_column motion_M (lit "tsec") (map Num motion_ts)) by (right; right; right; right; left; reflexivity). pose proof (column_unique _ _ _ _ _ TM Hts Q) as E. clear - E. revert E. generalize motion_ts. induction ts as [|a l IH]; intros [|b m] E; try discriminate; [reflexivity|]. cbn [map] in E. injection E as -> E. f_equal. apply IH. exact E. }
    subst ts. apply F2_cons in F. destruct F as ([nm curves] & figs & E2 & (En & vs & env & Hvs & He & Fc) & F'). cbn [fst snd] in En, Fc.
    assert (Ev : vs = map (fun k => Some (pitch k)) (seq 0 1000)) by (apply numbers_inj; exact (column_unique _ _ _ _ _ TM Hvs HP)).
    destruct (case_envelope env vs He Ev) as (Le & Ve).
    assert (Names : map fst figs = [lit "Roll"; lit "Heave"]). { clear - F'. inversion F' as [|? ? ? ? (Q1 & _) F2]; subst. inversion F2 as [|? ? ? ? (Q2 & _) F3]; subst. inversion F3; subst. cbn [map]. rewrite Q1, Q2. reflexivity. }
    apply F2_cons in Fc. destruct Fc as (u1 & us1 & B1 & (N1 & x1 & X1 & Cu1) & Fc). apply F2_cons in Fc. destruct Fc as (u2 & us2 & B2 & (N2 & x2 & X2 & Cu2) & Fc).
    apply F2_cons in Fc. destruct Fc as (u3 & us3 & B3 & (N3 & x3 & X3 & Cu3) & Fc). apply F2_cons in Fc. destruct Fc as (u4 & us4 & B4 & (N4 & _) & Fc).
    assert (B5 : us4 = []) by (inversion Fc; reflexivity). clear Fc. subst us4 us3 us2 us1. rename B1 into B.
    pose proof (proj1 Mt) as Tt.
    assert (E1' : x1 = map case_vcc (seq 0 1441)) by (apply numbers_inj; exact (column_unique _ _ _ _ _ Tt X1 H1)).
    assert (E2' : x2 = map (fun _ => Some 4%Q) (seq 0 1441)) by (apply numbers_inj; exact (column_unique _ _ _ _ _ Tt X2 H2)).
    assert (E3' : x3 = map case_al (seq 0 1441)) by (apply numbers_inj; exact (column_unique _ _ _ _ _ Tt X3 H3)).
    assert (Ln : forall (A : Type) (g : nat -> A), len (map g (seq 0 1441)) = 1441%nat) by (intros A g; rewrite map_length, seq_length; reflexivity).
    assert (Sg : forall N s K, segmentation 1441 N s K -> N = 256%nat /\ s = 128%nat /\ K = 10%nat).
    { intros N s K (-> & -> & Sk). split; [reflexivity|]. split; [reflexivity|]. change (Nat.min 256 1441) with 256%nat in Sk. change (256 - 256 / 2)%nat with 128%nat in Sk.
      pose proof (proj2 (Sk 9%nat)). pose proof (proj1 (Sk 10%nat)). lia. }
    exists figures, curves, (fst (snd u1)), (snd (snd u1)). split; [exact Es|]. split; [rewrite E2; exact (f_equal2 cons En Names)|]. split; [rewrite E2, En; reflexivity|].
    split; [rewrite B; cbn [map]; rewrite N1, N2, N3, N4; reflexivity|]. split; [rewrite B; cbn [nth_error]; rewrite <- N1; destruct u1 as [? [? ?]]; reflexivity|].
    assert (At : forall (x : list (option Q)) (g : nat -> option Q) i, x = map g (seq 0 1441) -> (i < 1441)%nat -> nth i (map (fun i => real (nth i x None)) (seq 0 1441)) None = real (g i)).
    { intros x g i -> Hi. rewrite nth_map_seq_at by exact Hi. rewrite nth_map_seq_at by exact Hi. reflexivity. }
    destruct Cu1 as (N & s & K & S1 & HK & Lf & Lc & V1). rewrite Ln in S1. pose proof (Sg _ _ _ S1) as (-> & -> & ->).
    split; [exact Lf|]. split; [exact Lc|]. split; [destruct (V1 3%nat) as (Q & _); [cbn; lia|]; rewrite Q; rewrite (INR_IZR_INZ 3), (INR_IZR_INZ 256); reflexivity|]. split.
    + destruct (V1 0%nat ltac:(cbn; lia)) as (_ & _ & V). set (v := map (fun t => (- (4 / 5)) * t + 7)%R env).
      destruct (V v) as (_ & V').
      { intros k j Hk Hj. assert (Hi : (k * 128 + j < 1441)%nat) by lia. rewrite (At x1 case_vcc _ E1' Hi). unfold v. rewrite (nth_indep _ 0%R ((fun t => (- (4 / 5)) * t + 7)%R 0%R)) by (rewrite map_length, Le; exact Hi).
        rewrite (map_nth (fun t => (- (4 / 5)) * t + 7)%R), (Ve _ Hi). unfold case_vcc, real. destruct (k * 128 + j =? 0)%nat; f_equal; unfold Q2R; cbn [Qnum Qden]; field. }
      assert (Pe : power 256 128 10 env 0 <> 0%R). { apply Rgt_not_eq. apply (first_differs 256 128 10 env 0 (5 / 2)); [lia|lia|intros j Hj; apply Ve; lia|lra]. }
      destruct (affine_msc 1441 256 128 10 (- (4 / 5)) 7 env 0 S1 Le ltac:(lia) ltac:(lra) Pe) as (Q1 & Q2). rewrite V' by assumption. f_equal. exact Q2.
    + intros k c Hk Hc f Hf. rewrite B in Hc. assert (Hf' : (f <= 256 / 2)%nat) by (cbn; lia). destruct Hk as [->| ->]; cbn [nth_error] in Hc; injection Hc as <-.
      * destruct Cu2 as (N & s & K & S2 & _ & _ & Lc2 & V2). rewrite Ln in S2. pose proof (Sg _ _ _ S2) as (-> & -> & ->). destruct (V2 f Hf') as (_ & _ & V).
        rewrite (nth_error_nth' _ None) by (rewrite Lc2; cbn; lia). f_equal.
        destruct (V (repeat 4%R 1441)) as (V' & _).
        { intros k j Hk Hj. rewrite (At x2 _ _ E2') by lia. rewrite nth_repeat_at by lia. unfold real. f_equal. unfold Q2R. cbn [Qnum Qden]. field. }
        apply V'. left. unfold power. rewrite (Rsum_ext 10 _ (fun _ => 0%R)); [rewrite Rsum_const; ring|].
        intros k Hk. destruct (four_constant 256 128 (repeat 4%R 1441) f k ltac:(lia)) as (-> & ->); [|ring].
        intros j Hj. rewrite !nth_repeat_at by lia. reflexivity.
      * destruct Cu3 as (N & s & K & S3 & _ & _ & Lc3 & V3). rewrite Ln in S3. pose proof (Sg _ _ _ S3) as (-> & -> & ->). destruct (V3 f Hf') as (_ & V & _).
        rewrite (nth_error_nth' _ None) by (rewrite Lc3; cbn; lia). f_equal. apply V. exists 5%nat, 60%nat. split; [lia|]. split; [lia|]. rewrite (At x3 case_al _ E3') by lia. reflexivity.
Qed.
