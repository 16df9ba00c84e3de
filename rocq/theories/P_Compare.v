(** C114: example-scripts/dgs_raw_comp.py from its files to what it plots. *)
From Coq Require Import ZArith QArith Reals Qreals Lra Lia Ascii String Arith Bool Sorted Permutation List.
From Verif Require Import M_Py M_Np M_Str M_Cal M_Ini M_Toml M_Nmea M_ReadNav M_Table M_Dgs M_Faa M_Nan M_Script M_Serial M_Compare.
From Verif Require Import S_Base S_Str S_Cal S_Toml S_Nmea S_ReadNav S_Table S_Bgm S_Filt S_Faa S_Nan S_Script S_Serial S_Motion S_Compare.
From Verif Require Import L_Base L_Np L_Str L_Table L_Toml L_Rows L_Script P_ReadNav P_Faa P_Nan P_Serial P_Calib P_Script P_Motion.
Import ListNotations.
Notation len := List.length.

(** ** Calibration *)
Lemma column_set f c v c' : column (set_column f c v) c' = if str_eqb c c' then Some v else column f c'.
Proof.
  induction f as [|[k w] f IH]; cbn [set_column column]; [reflexivity|].
  destruct (str_eqb k c) eqn:E.
  - cbn [column]. apply str_eqb_eq in E. subst k. destruct (str_eqb c c'); reflexivity.
  - cbn [column]. rewrite IH. destruct (str_eqb k c') eqn:E'; [|reflexivity]. apply str_eqb_eq in E'. subst k.
    destruct (str_eqb c c') eqn:E2; [|reflexivity]. apply str_eqb_eq in E2. subst c'. rewrite (proj2 (str_eqb_eq c c) eq_refl) in E. discriminate.
Qed.
Lemma calibrate_column_ok d full name ch kg kz g z raw vs : ~ (full == 0)%Q -> S_Toml.distinct d -> setting d kg g -> setting d kz z ->
  column raw ch = Some (map number vs) ->
  exists ys, calibrate_column d full name ch (lit kg) (lit kz) raw = Some (Ok (set_column raw name ys)) /\ Forall2 (calibrated_cell full g z) vs ys.
Proof.
  intros Hf D Hg Hz Hc. destruct (sensor_setting d kg g D Hg) as [f1 [y1 [E1 [F1 Q1]]]]. destruct (sensor_setting d kz z D Hz) as [f2 [y2 [E2 [F2 Q2]]]].
  unfold calibrate_column, get_column. rewrite Hc. cbn [bind]. rewrite E1. cbn [bind obind fst snd]. rewrite F1.
  assert (M : mapM (scale_cell y1 full) (map number vs) = Ok (map (fun v => match v with Some a => Num (a * y1 / full)%Q | None => NaN end) vs)).
  { clear. induction vs as [|[a|] vs IH]; cbn [map mapM number scale_cell bind]; [reflexivity| |]; rewrite IH; reflexivity. }
  rewrite M. cbn [bind]. rewrite E2. cbn [bind obind fst snd]. rewrite F2. eexists. split; [reflexivity|].
  clear - Hf Q1 Q2. induction vs as [|[a|] vs IH]; cbn [map shift_cell]; constructor; try exact IH; constructor. rewrite Q1, Q2. field. exact Hf.
Qed.
Definition step_of (c : string * string * string * string * Q) : str * (str * (str * (str * Q))) :=
  let '(name, ch, kg, kz, full) := c in (lit name, (lit ch, (lit kg, (lit kz, full)))).
Definition new_name (c : string * string * string * string * Q) : str := let '(name, ch, kg, kz, full) := c in lit name.
Definition channel_of (c : string * string * string * string * Q) : str := let '(name, ch, kg, kz, full) := c in lit ch.
Definition ready (d : doc) (raw : frame) (c : string * string * string * string * Q) : Prop :=
  let '(name, ch, kg, kz, full) := c in ~ (full == 0)%Q /\ (exists g, setting d kg g) /\ (exists z, setting d kz z) /\ exists vs, column raw (lit ch) = Some (map number vs).
Definition done (d : doc) (raw raw' : frame) (c : string * string * string * string * Q) : Prop :=
  let '(name, ch, kg, kz, full) := c in exists g z vs ys, setting d kg g /\ setting d kz z /\ column raw (lit ch) = Some (map number vs) /\
    column raw' (lit name) = Some ys /\ Forall2 (calibrated_cell full g z) vs ys.
Lemma calibrate_columns_ok d n : S_Toml.distinct d -> forall cs raw, S_Table.table raw n -> Forall (ready d raw) cs -> NoDup (map new_name cs) ->
  (forall a b, In a cs -> In b cs -> new_name a <> channel_of b) ->
  exists raw', calibrate_columns d (map step_of cs) raw = Some (Ok raw') /\ S_Table.table raw' n /\
    (forall c, ~ In c (map new_name cs) -> column raw' c = column raw c) /\ Forall (done d raw raw') cs.
Proof.
  intros D. induction cs as [|c cs IH]; intros raw Ht Hr Nd Ds.
  - exists raw. split; [reflexivity|]. split; [exact Ht|]. split; [reflexivity|constructor].
  - inversion Hr as [|? ? Hc Hcs]; subst. cbn [map] in Nd. inversion Nd as [|? ? N1 N2]; subst. destruct c as [[[[name ch] kg] kz] full]. cbn [new_name] in N1.
    destruct Hc as (Hf & (g & Hg) & (z & Hz) & vs & Hv). destruct (calibrate_column_ok d full (lit name) (lit ch) kg kz g z raw vs Hf D Hg Hz Hv) as (ys & E & F).
    assert (Ly : len ys = n).
    { rewrite (F2_len _ _ _ _ _ F). apply column_some in Hv. destruct Ht as (_ & _ & Ht). rewrite Forall_forall in Ht. specialize (Ht _ Hv). cbn [snd] in Ht. rewrite map_length in Ht. exact Ht. }
    set (raw1 := set_column raw (lit name) ys) in *.
    assert (T1 : S_Table.table raw1 n) by (apply set_column_table; assumption).
    assert (K : forall b, In b cs -> column raw1 (channel_of b) = column raw (channel_of b)).
    { intros b Hb. unfold raw1. rewrite column_set. destruct (str_eqb (lit name) (channel_of b)) eqn:Eb; [|reflexivity]. apply str_eqb_eq in Eb.
      exfalso. exact (Ds (name, ch, kg, kz, full) b (or_introl eq_refl) (or_intror Hb) Eb). }
    destruct (IH raw1 T1) as (raw' & E' & T' & Kp & Dn); [|exact N2|intros a b Ha Hb; apply Ds; right; assumption|].
    { rewrite Forall_forall in *. intros b Hb. specialize (Hcs b Hb). specialize (K b Hb). destruct b as [[[[name' ch'] kg'] kz'] full']. cbn [ready channel_of] in *. rewrite K. exact Hcs. }
    exists raw'. split; [cbn [map step_of calibrate_columns]; rewrite E; exact E'|]. split; [exact T'|]. split.
    + intros x Hx. cbn [map new_name] in Hx. rewrite Kp by (intros H; apply Hx; right; exact H). unfold raw1. rewrite column_set.
      destruct (str_eqb (lit name) x) eqn:Ex; [|reflexivity]. apply str_eqb_eq in Ex. exfalso. apply Hx. left. exact Ex.
    + constructor.
      * cbn [done]. exists g, z, vs, ys. split; [exact Hg|]. split; [exact Hz|]. split; [exact Hv|]. split; [|exact F].
        rewrite Kp by exact N1. unfold raw1. rewrite column_set, (proj2 (str_eqb_eq _ _) eq_refl). reflexivity.
      * rewrite Forall_forall in *. intros b Hb. specialize (Dn b Hb). specialize (K b Hb). destruct b as [[[[name' ch'] kg'] kz'] full']. cbn [done channel_of] in *. rewrite K in Dn. exact Dn.
Qed.

(** ** Curves *)
Lemma window_rows (d0 d1 : Q) f c order (tt : nat -> Q) (yy : nat -> cell) :
  column f (lit "date_time") = Some (map (fun i => Time (tt i)) order) -> column f c = Some (map yy order) ->
  window_curve (Time d0) (Time d1) f c = Ok (map (fun i => (Time (tt i), yy i)) (filter (fun i => negb (Qle_bool (tt i) d0) && negb (Qle_bool d1 (tt i))) order)).
Proof.
  intros H1 H2. unfold window_curve, get_column. rewrite H1, H2. cbn [bind].
  assert (M : mapM (in_window (Time d0) (Time d1)) (map (fun i => Time (tt i)) order) = Ok (map (fun i => negb (Qle_bool (tt i) d0) && negb (Qle_bool d1 (tt i))) order)).
  { clear. induction order as [|i l IH]; [reflexivity|]. cbn [map mapM in_window bind]. rewrite IH. reflexivity. }
  rewrite M. cbn [bind]. f_equal. clear. induction order as [|i l IH]; [reflexivity|]. cbn [map combine filter fst].
  destruct (negb (Qle_bool (tt i) d0) && negb (Qle_bool d1 (tt i))); cbn [map snd]; rewrite IH; reflexivity.
Qed.
Lemma Qle_bool_us t i u j : (t == i # 1000000)%Q -> (u == j # 1000000)%Q -> negb (Qle_bool t u) = true <-> (j < i)%Z.
Proof.
  intros Ht Hu. rewrite negb_true_iff. split.
  - intros H. assert (N : ~ (t <= u)%Q) by (intros C; apply Qle_bool_iff in C; congruence). apply Qnot_le_lt in N. rewrite Ht, Hu in N. unfold Qlt in N. cbn [Qnum Qden] in N. lia.
  - intros H. destruct (Qle_bool t u) eqn:E; [|reflexivity]. apply Qle_bool_iff in E. rewrite Ht, Hu in E. unfold Qle in E. cbn [Qnum Qden] in E. lia.
Qed.
Lemma window_between f c order (tt : nat -> Q) us (yy : nat -> cell) lo hi d0 d1 :
  column f (lit "date_time") = Some (map (fun i => Time (tt i)) order) -> column f c = Some (map yy order) ->
  Forall (fun i => tt i == nth i us 0%Z # 1000000)%Q order -> (d0 == lo # 1000000)%Q -> (d1 == hi # 1000000)%Q ->
  exists rows, window_curve (Time d0) (Time d1) f c = Ok (map (fun i => (Time (tt i), yy i)) rows) /\ between lo hi us order rows.
Proof.
  intros H1 H2 F E0 E1. eexists. split; [apply window_rows; eassumption|]. apply filter_selected. intros i Hi. rewrite Forall_forall in F. specialize (F i Hi).
  rewrite andb_true_iff, (Qle_bool_us _ _ _ _ F E0), (Qle_bool_us _ _ _ _ E1 F). lia.
Qed.
Lemma selected_sub (A : Type) (P : A -> Prop) l l' : selected P l l' -> forall a, In a l' -> In a l.
Proof. induction 1 as [|a l l' _ _ IH|a l l' _ _ IH]; intros x Hx; [exact Hx|destruct Hx as [->|Hx]; [left; reflexivity|right; apply IH; exact Hx]|right; apply IH; exact Hx]. Qed.

(** ** Settings *)
Lemma setting_unique d k q q' : S_Toml.distinct d -> setting d k q -> setting d k q' -> q = q'.
Proof.
  intros [D1 D2] (t & v & I1 & I2 & N) (t' & v' & I1' & I2' & N'). pose proof (nodup_right _ _ D1) as Nt.
  assert (U : forall (B : Type) (l : list (str * B)) x y y', NoDup (map fst l) -> In (x, y) l -> In (x, y') l -> y = y').
  { intros B l x y y' Hn Hy Hy'. pose proof (assoc_found x y l Hn Hy). pose proof (assoc_found x y' l Hn Hy'). congruence. }
  pose proof (U _ _ _ _ _ Nt I1 I1'). subst t'. rewrite Forall_forall in D2. specialize (D2 _ I1). pose proof (U _ _ _ _ _ D2 I2 I2'). subst v'.
  destruct N; inversion N'; reflexivity.
Qed.

(** ** Positions *)
Lemma position_at nav i : StronglySorted Z.lt (map time nav) -> (2 <= len nav)%nat -> exists b, bracket (map (fun f => IZR (time f)) nav) (IZR i) b /\
  forall field, match nth b (map field nav) None, nth (S b) (map field nav) None with
           | Some p, Some q => exists y, interp1d (map f_time (map nav_fix nav)) (map field nav) (IZR i / 1000000) = Some y /\
               S_Faa.on_line (nth b (map (fun f => IZR (time f)) nav) 0%R) p (nth (S b) (map (fun f => IZR (time f)) nav) 0%R) q (IZR i) y
           | _, _ => interp1d (map f_time (map nav_fix nav)) (map field nav) (IZR i / 1000000) = None end.
Proof.
  intros St H2. assert (Sn : StronglySorted Rlt (map (fun r => IZR (time r) / 1000000)%R nav)).
  { rewrite <- (map_map time (fun t => IZR t / 1000000)%R). apply (sorted_map _ _ _ Z.lt); [|exact St]. intros a b _ _ H. apply IZR_lt in H. lra. }
  assert (A : ascending (map f_time (map nav_fix nav))) by (rewrite map_map; apply sorted_ascending; exact Sn).
  destruct (C79_fixes_used (map f_time (map nav_fix nav)) (IZR i / 1000000) A ltac:(rewrite !map_length; exact H2)) as (b & Bb & _).
  assert (Et : map f_time (map nav_fix nav) = map (fun t => IZR t / 1000000)%R (map time nav)) by (rewrite !map_map; reflexivity).
  assert (Ez : map (fun r => IZR (time r)) nav = map IZR (map time nav)) by (rewrite map_map; reflexivity).
  exists b. rewrite Ez. split; [apply bracket_scaled; rewrite <- Et; exact Bb|]. intros field.
  destruct (C79_interpolated (map f_time (map nav_fix nav)) (map field nav) _ b A Bb) as [I1 I2].
  destruct (nth b (map field nav) None) as [p|] eqn:Ep; [|apply I1; left; reflexivity]. destruct (nth (S b) (map field nav) None) as [q|] eqn:Eq; [|apply I1; right; reflexivity].
  destruct (I2 p q eq_refl eq_refl) as (y & Ey & Hl & _). exists y. split; [exact Ey|]. unfold S_Faa.on_line in *. rewrite Et in Hl. destruct Bb as [Hb _]. rewrite !map_length in Hb.
  assert (X : forall m, (m < len nav)%nat -> nth m (map (fun t => IZR t / 1000000)%R (map time nav)) 0%R = (nth m (map IZR (map time nav)) 0 / 1000000)%R).
  { intros m Hm. rewrite (nth_error_nth _ m 0%R (x := (IZR (nth m (map time nav) 0%Z) / 1000000)%R)) by (rewrite nth_error_map, (nth_error_nth' (map time nav) 0%Z) by (rewrite map_length; exact Hm); reflexivity).
    rewrite (nth_error_nth (map IZR (map time nav)) m 0%R (x := IZR (nth m (map time nav) 0%Z))) by (rewrite nth_error_map, (nth_error_nth' (map time nav) 0%Z) by (rewrite map_length; exact Hm); reflexivity). reflexivity. }
  rewrite !X in Hl by lia. nra.
Qed.

Lemma column_one T n c v w : S_Table.table T n -> has_column T c v -> has_column T c w -> v = w.
Proof. intros (Nd & _) H1 H2. apply (column_has _ _ _ Nd) in H1, H2. congruence. Qed.
Lemma number_inj l : forall l', map number l = map number l' -> l = l'.
Proof.
  induction l as [|a l IH]; intros [|b l'] E; try discriminate; [reflexivity|]. cbn [map] in E. injection E as E1 E2.
  f_equal; [destruct a, b; try discriminate; [cbn [number] in E1; congruence|reflexivity]|apply IH; exact E2].
Qed.
(** The table that the serial files become. *)
Definition completed (d : doc) (bias : Q) (n : nat) (Rw R' : frame) : Prop :=
  S_Table.table R' n /\
  (forall c v, has_column Rw c v -> ~ In c (map (fun x => let '(name, _, _, _, _) := x in lit name) channels) -> c <> lit "grav" -> has_column R' c v) /\
  (forall name ch kg kz full g z vs, In (name, ch, kg, kz, full) channels -> setting d kg g -> setting d kz z -> has_column Rw (lit ch) (map number vs) ->
     exists ys, has_column R' (lit name) ys /\ Forall2 (calibrated_cell full g z) vs ys) /\
  (forall g z vs, setting d "GravCal" g -> setting d "g0" z -> has_column Rw (lit "Gravity") (map number vs) ->
     exists ys, has_column R' (lit "grav") ys /\ Forall2 (calibrated_cell 8388607 g (z + bias)) vs ys).
Lemma calibrated_table_ok d bias n Rw : S_Toml.distinct d -> S_Table.table Rw n ->
  Forall (fun c => let '(name, ch, kg, kz, full) := c in (exists g, setting d kg g) /\ (exists z, setting d kz z) /\ exists vs, has_column Rw (lit ch) (map number vs)) channels ->
  exists R', calibrated_table d bias Rw = Some (Ok R') /\ completed d bias n Rw R'.
Proof.
  intros D Ht H. assert (Nd : NoDup (map fst Rw)) by exact (proj1 Ht).
  destruct (calibrate_columns_ok d n D channels Rw Ht) as (R1 & E & T1 & Kp & Dn).
  { rewrite Forall_forall in *. intros c Hc. specialize (H c Hc). destruct c as [[[[name ch] kg] kz] full]. destruct H as (H1 & H2 & vs & H3). split.
    - clear - Hc. unfold channels in Hc. repeat (destruct Hc as [Hc|Hc]; [injection Hc as <- <- <- <- <-; discriminate|]). contradiction.
    - split; [exact H1|]. split; [exact H2|]. exists vs. apply column_has; assumption. }
  { vm_compute. repeat constructor; cbn [In]; intros Q; repeat (destruct Q as [Q|Q]; [discriminate|]); contradiction. }
  { intros a b Ha Hb. unfold channels in Ha, Hb. repeat (destruct Ha as [<-|Ha]; [repeat (destruct Hb as [<-|Hb]; [discriminate|]); contradiction|]). contradiction. }
  rewrite Forall_forall in Dn. assert (HG : In ("grav_cal", "Gravity", "GravCal", "g0", 8388607%Q)%string channels) by (left; reflexivity).
  pose proof (Dn _ HG) as (g0 & z0 & vs0 & ys0 & G1 & G2 & G3 & G4 & G5).
  assert (N1 : NoDup (map fst R1)) by exact (proj1 T1).
  assert (Ly : len ys0 = n). { apply column_some in G4. destruct T1 as (_ & _ & F1). rewrite Forall_forall in F1. exact (F1 _ G4). }
  exists (set_column R1 (lit "grav") (map (shift_cell bias) ys0)). split.
  { unfold calibrated_table. change cal_steps with (map step_of channels). rewrite E. cbn [obind]. unfold get_column. rewrite G4. reflexivity. }
  split; [apply set_column_table; [exact T1|rewrite map_length; exact Ly]|]. split; [|split].
  - intros c v Hc Hn Hg. apply column_some. rewrite column_set. destruct (str_eqb (lit "grav") c) eqn:Ec; [apply str_eqb_eq in Ec; congruence|].
    rewrite Kp by exact Hn. apply column_has; assumption.
  - intros name ch kg kz full g z vs Hin Sg Sz Hv. pose proof (Dn _ Hin) as (g' & z' & vs' & ys & K1 & K2 & K3 & K4 & K5).
    rewrite (setting_unique d kg g g' D Sg K1), (setting_unique d kz z z' D Sz K2). apply column_some in K3. pose proof (number_inj _ _ (column_one _ _ _ _ _ Ht Hv K3)). subst vs'.
    exists ys. split; [|exact K5]. apply column_some. rewrite column_set. destruct (str_eqb (lit "grav") (lit name)) eqn:Ec; [|exact K4]. apply str_eqb_eq in Ec.
    exfalso. clear - Hin Ec. unfold channels in Hin. repeat (destruct Hin as [Hin|Hin]; [injection Hin as <- <- <- <- <-; discriminate|]). contradiction.
  - intros g z vs Sg Sz Hv. rewrite (setting_unique d _ g g0 D Sg G1), (setting_unique d _ z z0 D Sz G2). apply column_some in G3. pose proof (number_inj _ _ (column_one _ _ _ _ _ Ht Hv G3)). subst vs0.
    exists (map (shift_cell bias) ys0). split; [apply column_some; rewrite column_set, (proj2 (str_eqb_eq _ _) eq_refl); reflexivity|].
    clear - G5. induction G5 as [|v y vs ys Hc _ IH]; cbn [map]; constructor; [|exact IH]. destruct Hc as [|a b Hb]; cbn [shift_cell]; constructor. rewrite Qmult_plus_distr_l, Hb. ring.
Qed.

(** ** The order of the laptop rows *)
Lemma filter_false (A : Type) (p : A -> bool) l : (forall a, In a l -> p a = false) -> filter p l = [].
Proof. intros H. induction l as [|a l IH]; [reflexivity|]. cbn [filter]. rewrite (H a (or_introl eq_refl)). apply IH. intros x Hx. apply H. right. exact Hx. Qed.
Lemma selected_fun (A : Type) (P : A -> Prop) l l' : selected P l l' -> forall l'', selected P l l'' -> l'' = l'.
Proof. induction 1 as [|a l l' Ha _ IH|a l l' Ha _ IH]; intros m H; inversion H; subst; try contradiction; try (exfalso; auto; fail); [reflexivity|f_equal; apply IH; assumption|apply IH; assumption]. Qed.
Lemma selected_three (A : Type) (P : A -> Prop) l1 l2 l3 : Forall (fun a => ~ P a) l1 -> Forall P l2 -> Forall (fun a => ~ P a) l3 -> selected P (l1 ++ l2 ++ l3) l2.
Proof.
  intros F1 F2 F3. induction F1 as [|a l1 Ha _ IH]; cbn [app]; [|constructor; assumption].
  induction F2 as [|a l2 Ha _ IH2]; cbn [app]; [|constructor; assumption]. induction F3 as [|a l3 Ha _ IH3]; constructor; assumption.
Qed.
Lemma strictly_between us idx m : time_order us idx -> NoDup us -> (m < len idx)%nat -> (0 < m)%nat ->
  selected (fun i => nth (nth 0 idx 0%nat) us 0 < nth i us 0 < nth (nth m idx 0%nat) us 0)%Z idx (firstn (m - 1) (skipn 1 idx)).
Proof.
  intros [P So] Nd Hm H0. assert (Ni : NoDup idx) by (apply (Permutation_NoDup (Permutation_sym P)); apply seq_NoDup).
  assert (Bd : forall k, (k < len idx)%nat -> (nth k idx 0 < len us)%nat). { intros k Hk. apply (nth_In idx 0%nat) in Hk. apply (Permutation_in _ P) in Hk. apply in_seq in Hk. lia. }
  assert (Lt : forall a b, (a < b)%nat -> (b < len idx)%nat -> (nth (nth a idx 0%nat) us 0 < nth (nth b idx 0%nat) us 0)%Z).
  { intros a b Hab Hb. assert (Le : (nth (nth a idx 0%nat) us 0 <= nth (nth b idx 0%nat) us 0)%Z).
    { clear - So Hab Hb. revert a b Hab Hb. induction So as [|x l _ IH F]; intros a b Hab Hb; cbn [len] in Hb; [lia|]. destruct b as [|b]; [lia|]. destruct a as [|a]; cbn [nth].
      - rewrite Forall_forall in F. apply F. apply nth_In. lia.
      - apply IH; lia. }
    assert (Ne : nth (nth a idx 0%nat) us 0%Z <> nth (nth b idx 0%nat) us 0%Z).
    { intros C. apply (proj1 (NoDup_nth us 0%Z) Nd) in C; [|apply Bd; lia|apply Bd; exact Hb]. apply (proj1 (NoDup_nth idx 0%nat) Ni) in C; lia. }
    lia. }
  assert (Sp : idx = firstn 1 idx ++ firstn (m - 1) (skipn 1 idx) ++ skipn (m - 1) (skipn 1 idx)) by (rewrite firstn_skipn, firstn_skipn; reflexivity).
  apply (eq_ind_r (fun l => selected (fun i => nth (nth 0 idx 0%nat) us 0 < nth i us 0 < nth (nth m idx 0%nat) us 0)%Z l (firstn (m - 1) (skipn 1 idx)))) with (2 := Sp). apply selected_three.
  - destruct idx as [|i idx]; [cbn [len] in Hm; lia|]. cbn [firstn]. constructor; [cbn [nth]; lia|constructor].
  - apply Forall_forall. intros i Hi. apply (In_nth _ _ 0%nat) in Hi. destruct Hi as (k & Hk & <-). rewrite firstn_length, skipn_length in Hk.
    assert (Ek : nth k (firstn (m - 1) (skipn 1 idx)) 0%nat = nth (S k) idx 0%nat). { rewrite nth_firstn by lia. destruct idx; [destruct k; reflexivity|reflexivity]. }
    rewrite Ek. split; apply Lt; lia.
  - apply Forall_forall. intros i Hi. apply (In_nth _ _ 0%nat) in Hi. destruct Hi as (k & Hk & <-). rewrite !skipn_length in Hk.
    assert (Ek : nth k (skipn (m - 1) (skipn 1 idx)) 0%nat = nth (m + k) idx 0%nat).
    { destruct idx as [|x l]; [cbn [len] in Hm; lia|]. cbn [skipn]. rewrite nth_skipn. destruct m as [|m]; [lia|]. cbn [Nat.add nth]. f_equal. lia. }
    rewrite Ek. destruct k as [|k]; [rewrite Nat.add_0_r; lia|]. pose proof (Lt m (m + S k)%nat ltac:(lia) ltac:(lia)). lia.
Qed.

(** C114: the script completes.  The first plot shows the laptop's readings between its first and its 501st time and, between the same
    times, the serial files' readings calibrated with the settings of the ini file; the serial table has all calibrated channels, and
    positions on the line between the fixes before and after. *)
Theorem C114_curves : exists h, four_minute_low_pass h /\
  forall argsort fsys td iso ship tk nav_paths files dgs_paths T us gs bias raw_paths fsys' clean_paths Rw rts rus ini d,
  sorts argsort -> known_ship ship -> talker_for ship (Some (lit "GPGGA")) tk -> Forall2 (provides fsys ship tk None) nav_paths files ->
  read_dgs_laptop fsys td dgs_paths ship None = Ok (Some T) -> meter_table T us gs -> (1440 < len us)%nat ->
  clean_files fsys raw_paths = (fsys', Ok clean_paths) -> read_dgs_raw fsys' td iso clean_paths ship true = Ok Rw ->
  S_Table.table Rw (len rus) -> has_column Rw (lit "date_time") (map Time rts) -> Forall2 (fun t i => t == i # 1000000)%Q rts rus -> Forall in_calendar rus ->
  meter_conf fsys' ini = Some (Ok d) -> S_Toml.distinct d ->
  Forall (fun c => let '(name, ch, kg, kz, full) := c in (exists g, setting d kg g) /\ (exists z, setting d kz z) /\ exists vs, has_column Rw (lit ch) (map number vs)) channels ->
  exists nav idx T' faa full c rows srows, read_nav fsys ship nav_paths 1 (Some (lit "GPGGA")) None 0 = Ok (Table nav) /\ time_order us idx /\
    dgs_script argsort fsys td ship (Some (lit "GPGGA")) false nav_paths dgs_paths (Q2R bias) 1 = Ok (T', faa, full) /\
    raw_comp argsort fsys td iso ship nav_paths dgs_paths bias raw_paths ini = Some (Ok c) /\
    let first := nth (nth 0 idx 0%nat) us 0%Z in let last := nth (nth 500 idx 0%nat) us 0%Z in
    between first last us idx rows /\ drawn us (fun i v => v = Num (nth i gs 0%Q)) rows (c_laptop c) /\
    (NoDup us -> rows = firstn 499 (skipn 1 idx)) /\
    between first last rus (seq 0 (len rus)) srows /\
    (forall g z vs, setting d "GravCal" g -> setting d "g0" z -> has_column Rw (lit "Gravity") (map number vs) ->
       drawn rus (fun i v => calibrated_cell 8388607 g z (nth i vs None) v) srows (c_serial c)) /\
    completed d bias (len rus) Rw (c_raw c) /\
    len (c_lon c) = len rus /\ len (c_lat c) = len rus /\
    ((2 <= len nav)%nat -> forall k, (k < len rus)%nat -> exists b, bracket (map (fun f => IZR (time f)) nav) (IZR (nth k rus 0%Z)) b /\
       forall field new, (field = fix_lon /\ new = nth k (c_lon c) None) \/ (field = fix_lat /\ new = nth k (c_lat c) None) ->
         match nth b (map field nav) None, nth (S b) (map field nav) None with
         | Some p, Some q => exists y, new = Some y /\
             S_Faa.on_line (nth b (map (fun f => IZR (time f)) nav) 0%R) p (nth (S b) (map (fun f => IZR (time f)) nav) 0%R) q (IZR (nth k rus 0%Z)) y
         | _, _ => new = None
         end) /\
    len (c_steps c) = (len rus - 1)%nat /\ (forall k, (S k < len rus)%nat -> nth k (c_steps c) 0%R = (IZR (nth (S k) rus 0%Z - nth k rus 0%Z) / 1000000)%R) /\
    len (c_faa c) = len us /\ (forall k, (k < len us)%nat -> S_Nan.missing (c_faa c) k <-> exists i, S_Nan.missing faa i /\ near 479 i k) /\
    (forall v k a, completes v faa -> nth_error (c_faa c) k = Some (Some a) -> a = forwards_backwards h (reflected v) (Z.of_nat k)).
Proof.
  destruct C95_values as (h & Hh & CV). exists h. split; [exact Hh|].
  intros argsort fsys td iso ship tk nav_paths files dgs_paths T us gs bias raw_paths fsys' clean_paths Rw rts rus ini d So Hs Ht Hp Hr M H3 Hcl Hraw Tr Hdt Hus Hcal Hm D HC.
  destruct (C60_table fsys ship nav_paths 1 (Some (lit "GPGGA")) None 0 tk files R1_neq_R0 (fun _ => Hs) Ht Hp) as (nav & pre & E & St & _).
  assert (En : script_nav fsys ship (Some (lit "GPGGA")) false nav_paths = Ok (map nav_fix nav)).
  { unfold script_nav. match goal with |- bind ?r _ = _ => replace r with (Ok (Table nav)) by (symmetry; exact E) end. reflexivity. }
  destruct (C103_positions argsort fsys td ship (Some (lit "GPGGA")) tk false nav_paths files dgs_paths T us gs (Q2R bias) 1%R So Hs Ht Hp Hr M ltac:(lia))
    as (rows0 & nav0 & idx & T' & faa & full & E' & _ & _ & Ed & O & Rr & Lf & _ & _).
  clear rows0 nav0 E'. pose proof M as (Tt & (ts & Hts & Fts) & Hg & HCal).
  assert (Li : len idx = len us) by (destruct O as [O _]; apply Permutation_length in O; rewrite seq_length in O; exact O).
  assert (Bi : Forall (fun i => (i < len us)%nat) idx) by (apply permutation_below; exact (proj1 O)).
  destruct (rearranged_column idx T T' _ _ _ Tt Rr Hts) as (Tt' & Hd' & Gd'). destruct (rearranged_column idx T T' _ _ _ Tt Rr Hg) as (_ & Hg' & _).
  assert (Nt : forall i, In i idx -> nth i (map Time ts) NaN = Time (nth i ts 0%Q)).
  { intros i Hi. rewrite Forall_forall in Bi. specialize (Bi i Hi). rewrite (nth_indep _ NaN (Time 0%Q)) by (rewrite map_length, <- (F2_len _ _ _ _ _ Fts); exact Bi). apply map_nth. }
  assert (Ng : forall i, In i idx -> nth i (map Num gs) NaN = Num (nth i gs 0%Q)).
  { intros i Hi. rewrite Forall_forall in Bi. specialize (Bi i Hi). rewrite (nth_indep _ NaN (Num 0%Q)); [apply map_nth|]. destruct Tt as (_ & _ & Fl). rewrite Forall_forall in Fl. specialize (Fl _ Hg). cbn [snd] in Fl. lia. }
  rewrite (map_ext_in _ _ _ Nt) in Hd', Gd'. rewrite (map_ext_in _ _ _ Ng) in Hg'.
  assert (Cd : column T' (lit "date_time") = Some (map (fun i => Time (nth i ts 0%Q)) idx)) by (apply column_has; [exact (proj1 Tt')|exact Hd']).
  assert (Cg : column T' (lit "rgrav") = Some (map (fun i => Num (nth i gs 0%Q)) idx)) by (apply column_has; [exact (proj1 Tt')|exact Hg']).
  destruct (calibrated_table_ok d bias (len rus) Rw D Tr HC) as (R' & Ec & Cm). pose proof Cm as (TR & Kp & Cc & _).
  assert (Fu : forall i, (i < len us)%nat -> (nth i ts 0 == nth i us 0%Z # 1000000)%Q).
  { intros i Hi. apply (Forall2_nth_total _ _ (fun t i => t == i # 1000000)%Q); [exact Fts|rewrite <- (F2_len _ _ _ _ _ Fts); exact Hi]. }
  assert (Fr : forall i, (i < len rus)%nat -> (nth i rts 0 == nth i rus 0%Z # 1000000)%Q).
  { intros i Hi. apply (Forall2_nth_total _ _ (fun t i => t == i # 1000000)%Q); [exact Hus|rewrite <- (F2_len _ _ _ _ _ Hus); exact Hi]. }
  assert (Bn : forall k, (k < len idx)%nat -> (nth k idx 0 < len us)%nat) by (intros k Hk; rewrite Forall_forall in Bi; apply Bi; apply nth_In; exact Hk).
  assert (Fi : Forall (fun i => nth i ts 0 == nth i us 0%Z # 1000000)%Q idx) by (rewrite Forall_forall in *; intros i Hi; apply Fu; apply Bi; exact Hi).
  pose proof (Fu _ (Bn 0%nat ltac:(lia))) as F0. pose proof (Fu _ (Bn 500%nat ltac:(lia))) as F5.
  destruct (window_between T' (lit "rgrav") idx (fun i => nth i ts 0%Q) us (fun i => Num (nth i gs 0%Q)) _ _ _ _ Cd Cg Fi F0 F5) as (rows & Ew & Bw).
  assert (HdR : has_column R' (lit "date_time") (map Time rts)) by (apply Kp; [exact Hdt|vm_compute; intros Q; repeat (destruct Q as [Q|Q]; [discriminate|]); contradiction|discriminate]).
  assert (CdR : column R' (lit "date_time") = Some (map (fun i => Time (nth i rts 0%Q)) (seq 0 (len rus)))).
  { rewrite (column_has _ _ _ (proj1 TR) HdR). f_equal. rewrite (F2_len _ _ _ _ _ Hus). clear. apply nth_ext with (d := Time 0%Q) (d' := Time 0%Q); [rewrite !map_length, seq_length; reflexivity|].
    intros k Hk. rewrite map_length in Hk. rewrite map_nth. rewrite (nth_indep _ _ ((fun i => Time (nth i rts 0%Q)) 0%nat)) by (rewrite map_length, seq_length; exact Hk).
    rewrite (map_nth (fun i => Time (nth i rts 0%Q))), seq_nth by exact Hk. reflexivity. }
  assert (HG : In ("grav_cal", "Gravity", "GravCal", "g0", 8388607%Q)%string channels) by (left; reflexivity).
  pose proof (proj1 (Forall_forall _ _) HC _ HG) as ((g & Sg) & (z & Sz) & vs & Hv).
  destruct (Cc _ _ _ _ _ _ _ _ HG Sg Sz Hv) as (ys & Hys & Fys).
  assert (Ly : len ys = len rus) by (destruct TR as (_ & _ & Fl); rewrite Forall_forall in Fl; exact (Fl _ Hys)).
  assert (CyR : column R' (lit "grav_cal") = Some (map (fun i => nth i ys NaN) (seq 0 (len rus)))).
  { rewrite (column_has _ _ _ (proj1 TR) Hys). f_equal. rewrite <- Ly. clear. apply nth_ext with (d := NaN) (d' := NaN); [rewrite map_length, seq_length; reflexivity|].
    intros k Hk. rewrite (nth_indep (map _ _) _ ((fun i => nth i ys NaN) 0%nat)) by (rewrite map_length, seq_length; exact Hk). rewrite (map_nth (fun i => nth i ys NaN)), seq_nth by exact Hk. reflexivity. }
  assert (Fi' : Forall (fun i => nth i rts 0 == nth i rus 0%Z # 1000000)%Q (seq 0 (len rus))) by (apply Forall_forall; intros i Hi; apply in_seq in Hi; apply Fr; lia).
  destruct (window_between R' (lit "grav_cal") (seq 0 (len rus)) (fun i => nth i rts 0%Q) rus (fun i => nth i ys NaN) _ _ _ _ CdR CyR Fi' F0 F5) as (srows & Ew' & Bw').
  destruct (cell_times_ok rts rus (seq 0 (len rus)) Hus Hcal) as (times & Et & Ft); [apply Forall_forall; intros i Hi; apply in_seq in Hi; lia|].
  assert (Et' : mapM cell_time (map Time rts) = Ok times).
  { rewrite <- Et. f_equal. rewrite (F2_len _ _ _ _ _ Hus), <- (map_length Time rts). clear. generalize (map Time rts). intros l. apply nth_ext with (d := NaN) (d' := NaN); [rewrite map_length, seq_length; reflexivity|].
    intros k Hk. rewrite (nth_indep (map _ _) _ ((fun i => nth i l NaN) 0%nat)) by (rewrite map_length, seq_length; exact Hk). rewrite (map_nth (fun i => nth i l NaN)), seq_nth by exact Hk. reflexivity. }
  pose proof (seconds_of rus _ _ Ft) as Es. set (tsec := map (fun i => (IZR (nth i rus 0%Z) / 1000000)%R) (seq 0 (len rus))) in *.
  destruct (proj2 (C95_missing faa) ltac:(lia)) as (ffaa & Ef & Lff & Mf).
  set (lon := map (interp1d (map f_time (map nav_fix nav)) (map f_lon (map nav_fix nav))) tsec). set (lat := map (interp1d (map f_time (map nav_fix nav)) (map f_lat (map nav_fix nav))) tsec).
  exists nav, idx, T', faa, full, (Compare (map (fun i => (Time (nth i ts 0%Q), Num (nth i gs 0%Q))) rows) (map (fun i => (Time (nth i rts 0%Q), nth i ys NaN)) srows) R' lon lat (map2 Rminus (tl tsec) tsec) ffaa), rows, srows.
  split; [exact E|]. split; [exact O|]. split; [exact Ed|]. split.
  { unfold raw_comp. rewrite En. cbn [bind]. rewrite Ed. cbn [bind obind]. rewrite Hcl. cbn [bind]. rewrite Hraw. cbn [obind]. rewrite Hm. cbn [obind]. rewrite Ec. cbn [obind]. rewrite Gd'. cbn [bind].
    rewrite nth_error_map, (nth_error_nth' idx 0%nat) by lia. cbn [option_map bind].
    assert (N0 : nth 0 (map (fun i => Time (nth i ts 0%Q)) idx) NaN = Time (nth (nth 0 idx 0%nat) ts 0%Q)) by (destruct idx; [cbn [len] in Li; lia|reflexivity]). rewrite N0.
    rewrite Ew. cbn [bind]. rewrite Ew'. cbn [bind]. unfold get_column. rewrite (column_has _ _ _ (proj1 TR) HdR). cbn [bind]. rewrite Et'. cbn [bind]. rewrite Es. cbn [bind sync]. fold lon. fold lat. rewrite Ef. reflexivity. }
  cbn [c_laptop c_serial c_raw c_lon c_lat c_steps c_faa]. cbv zeta.
  assert (Lts : len tsec = len rus) by (unfold tsec; rewrite map_length, seq_length; reflexivity).
  assert (Vts : forall k, (k < len rus)%nat -> nth_error tsec k = Some (IZR (nth k rus 0%Z) / 1000000)%R).
  { intros k Hk. unfold tsec. rewrite nth_error_map, (nth_error_nth' _ 0%nat), seq_nth by (rewrite ?seq_length; exact Hk). reflexivity. }
  split; [exact Bw|]. split.
  { assert (Sub : forall i, In i rows -> (i < len us)%nat) by (intros i Hi; apply (selected_sub _ _ _ _ Bw) in Hi; rewrite Forall_forall in Bi; apply Bi; exact Hi).
    clear - Sub Fu. unfold drawn. induction rows as [|i rows IH]; cbn [map]; constructor; [|apply IH; intros x Hx; apply Sub; right; exact Hx].
    cbn [fst snd]. split; [|reflexivity]. eexists. split; [reflexivity|]. apply Fu. apply Sub. left. reflexivity. }
  split. { intros Nd. apply (selected_fun _ _ _ _ (strictly_between us idx 500 O Nd ltac:(lia) ltac:(lia)) _ Bw). }
  split; [exact Bw'|]. split.
  { intros g' z' vs' Sg' Sz' Hv'. rewrite (setting_unique d _ g' g D Sg' Sg), (setting_unique d _ z' z D Sz' Sz). pose proof (number_inj _ _ (column_one _ _ _ _ _ Tr Hv Hv')). subst vs'.
    assert (Sub : forall i, In i srows -> (i < len rus)%nat) by (intros i Hi; apply (selected_sub _ _ _ _ Bw') in Hi; apply in_seq in Hi; lia).
    clear - Sub Fr Fys Ly. unfold drawn. induction srows as [|i rows IH]; cbn [map]; constructor; [|apply IH; intros x Hx; apply Sub; right; exact Hx].
    cbn [fst snd]. assert (Hi : (i < len rus)%nat) by (apply Sub; left; reflexivity). split; [eexists; split; [reflexivity|]; apply Fr; exact Hi|].
    apply (Forall2_nth_total _ _ (calibrated_cell 8388607 g z)); [exact Fys|]. rewrite <- (F2_len _ _ _ _ _ Fys). lia. }
  split; [exact Cm|]. split; [unfold lon; rewrite map_length; exact Lts|]. split; [unfold lat; rewrite map_length; exact Lts|]. split.
  { intros H2 k Hk. destruct (position_at nav (nth k rus 0%Z) St H2) as (b & Bb & X). exists b. split; [exact Bb|].
    assert (Pos : forall l, nth k (map (interp1d (map f_time (map nav_fix nav)) l) tsec) None = interp1d (map f_time (map nav_fix nav)) l (IZR (nth k rus 0%Z) / 1000000)).
    { intros l. apply nth_error_nth. rewrite nth_error_map, (Vts k Hk). reflexivity. }
    intros field new [[-> ->]|[-> ->]].
    - unfold lon. rewrite Pos. rewrite (map_map nav_fix f_lon). exact (X fix_lon).
    - unfold lat. rewrite Pos. rewrite (map_map nav_fix f_lat). exact (X fix_lat). }
  assert (Ltl : len (tl tsec) = (len rus - 1)%nat) by (rewrite <- Lts; destruct tsec; cbn [tl len]; lia).
  split; [rewrite map2_length, Ltl, Lts; lia|]. split.
  { intros k Hk. pose proof (Vts k ltac:(lia)) as V1. pose proof (Vts (S k) Hk) as V2. rewrite (L_Base.map2_nth _ _ _ Rminus _ _ k 0%R 0%R 0%R) by lia.
    assert (Et1 : nth k (tl tsec) 0%R = nth (S k) tsec 0%R) by (destruct tsec; [destruct k; reflexivity|reflexivity]). rewrite Et1, (nth_error_nth _ _ _ V1), (nth_error_nth _ _ _ V2), minus_IZR. lra. }
  split; [lia|]. split; [intros k Hk; apply Mf; lia|]. intros v k a Cv Ha. exact (CV _ _ _ _ _ Ef Cv Ha).
Qed.
Print Assumptions C114_curves.

(** ** What does not matter *)
Lemma calibrate_columns_keeps d c : forall steps raw raw', calibrate_columns d steps raw = Some (Ok raw') -> ~ In c (map fst steps) -> column raw' c = column raw c.
Proof.
  induction steps as [|[name [ch [kg [kz full]]]] steps IH]; intros raw raw' E Hn; cbn [calibrate_columns] in E; [congruence|]. cbn [map fst In] in Hn.
  destruct (calibrate_column d full name ch kg kz raw) as [[r1|e]|] eqn:E1; cbn [obind] in E; try discriminate.
  rewrite (IH _ _ E) by tauto. unfold calibrate_column in E1. destruct (get_column raw ch) as [col|]; cbn [bind obind] in E1; [|discriminate].
  destruct (sensor d kg) as [g|]; cbn [bind obind fst snd] in E1; [|discriminate]. destruct (fin g) as [g'|]; [|discriminate].
  destruct (mapM (scale_cell g' full) col) as [y|]; cbn [bind obind] in E1; [|discriminate]. destruct (sensor d kz) as [z|]; cbn [bind obind fst snd] in E1; [|discriminate].
  destruct (fin z) as [z'|]; [|discriminate]. injection E1 as <-. rewrite column_set. destruct (str_eqb name c) eqn:Ec; [|reflexivity]. apply str_eqb_eq in Ec. tauto.
Qed.
Lemma calibrated_table_keeps d bias c Rw R' : calibrated_table d bias Rw = Some (Ok R') -> ~ In c (map new_name channels) -> c <> lit "grav" -> column R' c = column Rw c.
Proof.
  unfold calibrated_table. change cal_steps with (map step_of channels). destruct (calibrate_columns d (map step_of channels) Rw) as [[r1|e]|] eqn:E; cbn [obind]; try discriminate.
  intros H Hn Hg. unfold get_column in H. destruct (column r1 (lit "grav_cal")) as [g|]; cbn [bind] in H; [|discriminate]. assert (Er : R' = set_column r1 (lit "grav") (map (shift_cell bias) g)) by congruence. clear H. subst R'. rewrite column_set.
  destruct (str_eqb (lit "grav") c) eqn:Ec; [apply str_eqb_eq in Ec; congruence|]. apply (calibrate_columns_keeps _ _ _ _ _ E). exact Hn.
Qed.
Lemma calibrated_table_bias d bias bias' Rw R1 R2 : calibrated_table d bias Rw = Some (Ok R1) -> calibrated_table d bias' Rw = Some (Ok R2) ->
  forall c, c <> lit "grav" -> column R2 c = column R1 c.
Proof.
  unfold calibrated_table. destruct (calibrate_columns d cal_steps Rw) as [[r1|e]|]; cbn [obind]; try discriminate. intros H1 H2 c Hc.
  unfold get_column in *. destruct (column r1 (lit "grav_cal")) as [g|]; cbn [bind] in H1, H2; [|discriminate]. assert (X1 : R1 = set_column r1 (lit "grav") (map (shift_cell bias) g)) by congruence. assert (X2 : R2 = set_column r1 (lit "grav") (map (shift_cell bias') g)) by congruence. clear H1 H2. subst R1 R2. rewrite !column_set.
  destruct (str_eqb (lit "grav") c) eqn:Ec; [apply str_eqb_eq in Ec; congruence|reflexivity].
Qed.
(** C114: the navigation and the bias have no part in the first plot, the sampling plot and the calibrated table (but for column [grav]). *)
Theorem C114_bias : forall argsort fsys td iso ship nav_paths nav_paths' dgs_paths bias bias' raw_paths ini c c',
  raw_comp argsort fsys td iso ship nav_paths dgs_paths bias raw_paths ini = Some (Ok c) ->
  raw_comp argsort fsys td iso ship nav_paths' dgs_paths bias' raw_paths ini = Some (Ok c') ->
  c_laptop c' = c_laptop c /\ c_serial c' = c_serial c /\ c_steps c' = c_steps c /\
  forall name, name <> lit "grav" -> forall v, has_column (c_raw c) name v -> NoDup (map fst (c_raw c)) -> has_column (c_raw c') name v.
Proof.
  intros argsort fsys td iso ship nav_paths nav_paths' dgs_paths bias bias' raw_paths ini c c'. unfold raw_comp.
  destruct (script_nav fsys ship (Some (lit "GPGGA")) false nav_paths) as [nav|e]; cbn [bind obind]; [|discriminate].
  destruct (dgs_script argsort fsys td ship (Some (lit "GPGGA")) false nav_paths dgs_paths (Q2R bias) 1) as [[[d1 f1] u1]|e] eqn:E1; cbn [bind obind]; [|discriminate].
  destruct (script_nav fsys ship (Some (lit "GPGGA")) false nav_paths') as [nav'|e]; cbn [bind obind]; [|discriminate].
  destruct (dgs_script argsort fsys td ship (Some (lit "GPGGA")) false nav_paths' dgs_paths (Q2R bias') 1) as [[[d2 f2] u2]|e] eqn:E2; cbn [bind obind]; [|discriminate].
  apply script_data in E1. apply script_data in E2. destruct E1 as (t1 & g1 & E1), E2 as (t2 & g2 & E2). rewrite E1 in E2. assert (d2 = d1) as -> by congruence. clear.
  destruct (clean_files fsys raw_paths) as [fsys' cl]. destruct (do paths <- cl; read_dgs_raw fsys' td iso paths ship true) as [raw|e]; cbn [obind]; [|discriminate].
  destruct (meter_conf fsys' ini) as [[d|e]|]; cbn [obind]; try discriminate.
  destruct (calibrated_table d bias raw) as [[R1|e]|] eqn:C1; cbn [obind]; try discriminate. destruct (calibrated_table d bias' raw) as [[R2|e]|] eqn:C2; cbn [obind]; try discriminate.
  pose proof (calibrated_table_bias _ _ _ _ _ _ C1 C2) as Same. destruct (get_column d1 (lit "date_time")) as [dt|e]; cbn [bind]; [|discriminate].
  destruct (match nth_error dt 500 with Some c0 => Ok c0 | None => Raise IndexError end) as [x1|e]; cbn [bind]; [|discriminate].
  destruct (window_curve (nth 0 dt NaN) x1 d1 (lit "rgrav")) as [lap|e]; cbn [bind]; [|discriminate].
  assert (W : window_curve (nth 0 dt NaN) x1 R2 (lit "grav_cal") = window_curve (nth 0 dt NaN) x1 R1 (lit "grav_cal")).
  { unfold window_curve, get_column. rewrite !Same by discriminate. reflexivity. }
  rewrite W. destruct (window_curve (nth 0 dt NaN) x1 R1 (lit "grav_cal")) as [ser|e]; cbn [bind]; [|discriminate].
  unfold get_column. rewrite Same by discriminate. destruct (column R1 (lit "date_time")) as [rt|]; cbn [bind]; [|discriminate].
  destruct (mapM cell_time rt) as [times|e]; cbn [bind]; [|discriminate]. destruct (mapM timestamp times) as [tsec|e]; cbn [bind]; [|discriminate].
  destruct (sync nav tsec) as [lo la]. destruct (sync nav' tsec) as [lo' la'].
  destruct (script_filter_nan f1) as [x|e]; cbn [bind]; [|discriminate]. destruct (script_filter_nan f2) as [x'|e]; cbn [bind]; [|discriminate].
  intros H1 H2. injection H1 as <-. injection H2 as <-. cbn [c_laptop c_serial c_steps c_raw]. split; [reflexivity|]. split; [reflexivity|]. split; [reflexivity|].
  intros name Hn v Hv Nd. apply column_some. rewrite (Same _ Hn). apply column_has; assumption.
Qed.
Print Assumptions C114_bias.

(** ** The order of the serial files *)
Lemma clean_path_inj p p' q : clean_path p q -> clean_path p' q -> p = p'.
Proof.
  intros (d & name & -> & Hn & Hd & E) (d' & name' & -> & Hn' & Hd' & E').
  assert (K : forall (a b x y : str), ~ In "/"%char x -> ~ In "/"%char y -> (a = [] \/ exists a', a = a' ++ lit "/") -> (b = [] \/ exists b', b = b' ++ lit "/") -> a ++ x = b ++ y -> a = b /\ x = y).
  { clear. induction a as [|c a IH]; intros b x y Hx Hy Ha Hb Eq.
    - cbn [app] in Eq. destruct Hb as [->|(b' & ->)]; [split; [reflexivity|exact Eq]|]. exfalso. apply Hx. rewrite Eq, <- app_assoc. apply in_or_app. right. left. reflexivity.
    - destruct b as [|c' b]; [exfalso; apply Hy; cbn [app] in Eq; rewrite <- Eq; destruct Ha as [C|(a' & Ea)]; [discriminate|]; change (c :: a ++ x) with ((c :: a) ++ x); rewrite Ea, <- app_assoc; apply in_or_app; right; left; reflexivity|].
      cbn [app] in Eq. injection Eq as -> Eq.
      assert (T : forall l, (c' :: l = [] \/ exists a', c' :: l = a' ++ lit "/") -> l = [] \/ exists a', l = a' ++ lit "/").
      { intros l [C|([|z a'] & C)]; [discriminate|left; cbn in C; congruence|right; exists a'; cbn in C; injection C as _ C; exact C]. }
      destruct (IH b x y Hx Hy (T _ Ha) (T _ Hb) Eq) as [-> ->]. split; reflexivity. }
  assert (Nc : forall n : str, ~ In "/"%char n -> ~ In "/"%char (lit "clean_" ++ n)).
  { intros n H C. apply in_app_iff in C. destruct C as [C|C]; [|exact (H C)]. vm_compute in C. repeat (destruct C as [C|C]; [discriminate|]). exact C. }
  subst q. destruct (K _ _ _ _ (Nc _ Hn) (Nc _ Hn') Hd Hd' E') as [-> X]. apply app_inv_head in X. congruence.
Qed.
Lemma clean_serial_names paths : forall f f' outs, clean_serial f paths = (f', Ok outs) -> outs = map clean_name paths.
Proof.
  induction paths as [|p paths IH]; intros f f' outs E; cbn [clean_serial] in E; [cbn [map]; congruence|].
  destruct (clean_file f p) as [f1 [o|e]] eqn:E1; [|discriminate]. destruct (clean_serial f1 paths) as [f2 [os|e]] eqn:E2; cbn [bind] in E; [|discriminate].
  assert (Eo : outs = o :: os) by congruence. subst outs. cbn [map]. f_equal; [|exact (IH _ _ _ E2)].
  unfold clean_file in E1. cbv zeta in E1. destruct (f (clean_name p)); [congruence|]. destruct (f p); congruence.
Qed.
(** C114: the files of the serial link may be given in any order, if they all exist. *)
Theorem C114_file_order : forall argsort fsys td iso ship nav_paths dgs_paths bias raw_paths raw_paths' ini,
  Permutation raw_paths raw_paths' -> Forall (fun p => fsys p <> None) raw_paths ->
  clean_files fsys raw_paths' = clean_files fsys raw_paths /\
  raw_comp argsort fsys td iso ship nav_paths dgs_paths bias raw_paths' ini = raw_comp argsort fsys td iso ship nav_paths dgs_paths bias raw_paths ini.
Proof.
  intros argsort fsys td iso ship nav_paths dgs_paths bias raw_paths raw_paths' ini P F.
  assert (X : clean_files fsys raw_paths' = clean_files fsys raw_paths); [|split; [exact X|unfold raw_comp; rewrite X; reflexivity]].
  destruct (clean_files fsys raw_paths) as [f1 r1] eqn:E1, (clean_files fsys raw_paths') as [f2 r2] eqn:E2.
  assert (F' : Forall (fun p => fsys p <> None) raw_paths') by (rewrite Forall_forall in *; intros p Hp; apply F; apply (Permutation_in _ (Permutation_sym P)); exact Hp).
  assert (Ok' : forall paths f r, Forall (fun p => fsys p <> None) paths -> clean_files fsys paths = (f, r) -> r = Ok (np_sort (map clean_name paths))).
  { clear. intros paths f r F E. destruct (C85_files _ _ _ _ E) as (K & _ & Er). destruct r as [outs|e].
    - unfold clean_files in E. destruct (clean_serial fsys paths) as [f2 [os|e]] eqn:Es; cbn [bind] in E; [|discriminate]. rewrite <- (clean_serial_names _ _ _ _ Es). congruence.
    - exfalso. destruct Er as (_ & l1 & p & l2 & -> & N & _). rewrite Forall_forall in F. specialize (F p ltac:(apply in_or_app; right; left; reflexivity)).
      destruct (fsys p) as [t|] eqn:Ep; [|contradiction]. rewrite (K _ _ Ep) in N. discriminate. }
  pose proof (Ok' _ _ _ F E1) as ->. pose proof (Ok' _ _ _ F' E2) as ->. rewrite (np_sort_permuted _ _ (Permutation_map clean_name P)). f_equal.
  apply FunctionalExtensionality.functional_extensionality. intros q.
  assert (W : forall paths paths' f f' o o', Permutation paths paths' -> Forall (fun p => fsys p <> None) paths -> clean_files fsys paths = (f, Ok o) -> clean_files fsys paths' = (f', Ok o') ->
    forall t, fsys q = None -> f q = Some t -> f' q = Some t).
  { clear. intros paths paths' f f' o o' P F E E' t Hq Ht. destruct (C85_files _ _ _ _ E) as (K & N & _ & (o0 & Po & Fo) & _). destruct (C85_files _ _ _ _ E') as (K' & N' & _ & (o0' & Po' & Fo') & Ne').
    rewrite Forall_forall in F. destruct (N q Hq) as [C|(p & text & t' & Hp & Cp & Hp' & Hq' & Ct)]; [congruence|]. assert (t' = t) by congruence. subst t'.
    assert (Hf : fsys p = Some text). { specialize (F p Hp). destruct (fsys p) as [x|] eqn:Ep; [|contradiction]. rewrite (K _ _ Ep) in Hp'. exact Hp'. }
    assert (Ho : In q o0'). { apply (Permutation_in _ P) in Hp. clear - Fo' Hp Cp. induction Fo' as [|a b l l' Hab _ IH]; [contradiction|]. destruct Hp as [->|Hp]; [left; exact (clean_path_fun _ _ _ Hab Cp)|right; apply IH; exact Hp]. }
    assert (Nn : f' q <> None) by (apply Ne'; apply (Permutation_in _ (Permutation_sym Po')); exact Ho).
    destruct (N' q Hq) as [C|(p2 & text2 & t2 & Hp2 & Cp2 & Hp2' & Hq2 & Ct2)]; [contradiction|]. pose proof (clean_path_inj _ _ _ Cp Cp2). subst p2. rewrite (K' _ _ Hf) in Hp2'.
    apply C85_text in Ct. apply C85_text in Ct2. congruence. }
  destruct (fsys q) as [t|] eqn:Eq.
  - rewrite (proj1 (C85_files _ _ _ _ E1) _ _ Eq), (proj1 (C85_files _ _ _ _ E2) _ _ Eq). reflexivity.
  - destruct (f1 q) as [t|] eqn:Q1; [exact (W _ _ _ _ _ _ P F E1 E2 t eq_refl Q1)|].
    destruct (f2 q) as [t|] eqn:Q2; [|reflexivity]. rewrite (W _ _ _ _ _ _ (Permutation_sym P) F' E2 E1 t eq_refl Q2) in Q1. discriminate.
Qed.
Print Assumptions C114_file_order.
(** Without their existence the order can matter: a raw file may be one that the script writes. *)
Example C114_file_order_case : let fsys := fun p => if str_eqb p (lit "a") then Some (good_line ++ [nl]) else None in
  (exists f, clean_files fsys [lit "a"; lit "clean_a"] = (f, Ok [lit "clean_a"; lit "clean_clean_a"])) /\
  (exists f, clean_files fsys [lit "clean_a"; lit "a"] = (f, Raise FileNotFoundError)).
Proof. split; eexists; reflexivity. Qed.

(** ** Failures *)
Lemma calibrate_columns_app d s1 s2 : forall raw, calibrate_columns d (s1 ++ s2) raw = obind (calibrate_columns d s1 raw) (calibrate_columns d s2).
Proof.
  induction s1 as [|[name [ch [kg [kz full]]]] s1 IH]; intros raw; [reflexivity|]. cbn [app calibrate_columns].
  destruct (calibrate_column d full name ch kg kz raw) as [[r|e]|]; cbn [obind]; [apply IH|reflexivity|reflexivity].
Qed.
Definition settled (d : doc) (Rw : frame) (c : string * string * string * string * Q) : Prop :=
  let '(name, ch, kg, kz, full) := c in (exists g, setting d kg g) /\ (exists z, setting d kz z) /\ exists vs, has_column Rw (lit ch) (map number vs).
Lemma NoDup_left (A : Type) (l l' : list A) : NoDup (l ++ l') -> NoDup l.
Proof.
  induction l as [|a l IH]; intros H; [constructor|]. cbn [app] in H. inversion H as [|? ? H1 H2]; subst. constructor; [intros C; apply H1; apply in_or_app; left; exact C|apply IH; exact H2].
Qed.
(** The channels before the failing one are calibrated, and its own column is as it was. *)
Lemma calibrated_prefix d bias n Rw before name ch kg kz full after : S_Toml.distinct d -> S_Table.table Rw n ->
  channels = before ++ (name, ch, kg, kz, full) :: after -> Forall (settled d Rw) before ->
  exists R1, column R1 (lit ch) = column Rw (lit ch) /\
    forall e, calibrate_column d full (lit name) (lit ch) (lit kg) (lit kz) R1 = Some (Raise e) -> calibrated_table d bias Rw = Some (Raise e).
Proof.
  intros D Ht E F.
  assert (N1 : NoDup (map new_name channels)) by (vm_compute; repeat constructor; cbn [In]; intros Q; repeat (destruct Q as [Q|Q]; [discriminate|]); contradiction).
  assert (N2 : forall a b, In a channels -> In b channels -> new_name a <> channel_of b).
  { intros a b Ha Hb. unfold channels in Ha, Hb. repeat (destruct Ha as [<-|Ha]; [repeat (destruct Hb as [<-|Hb]; [discriminate|]); contradiction|]). contradiction. }
  assert (N3 : forall name ch kg kz full, In (name, ch, kg, kz, full) channels -> ~ (full == 0)%Q).
  { clear. intros name ch kg kz full Hc. unfold channels in Hc. repeat (destruct Hc as [Hc|Hc]; [injection Hc as <- <- <- <- <-; discriminate|]). contradiction. }
  assert (Es : cal_steps = map step_of channels) by reflexivity. generalize dependent channels. intros chs E N1 N2 N3 Es. subst chs.
  destruct (calibrate_columns_ok d n D before Rw Ht) as (R1 & E1 & _ & Kp & _).
  { rewrite Forall_forall in *. intros [[[[na c] k1] k2] fu] Hc. destruct (F _ Hc) as (H1 & H2 & vs & H3). split; [exact (N3 na c k1 k2 fu ltac:(apply in_or_app; left; exact Hc))|].
    split; [exact H1|]. split; [exact H2|]. exists vs. apply column_has; [exact (proj1 Ht)|exact H3]. }
  { rewrite map_app in N1. exact (NoDup_left _ _ _ N1). }
  { intros a b Ha Hb. apply N2; apply in_or_app; left; assumption. }
  exists R1. split.
  { apply Kp. intros C. apply in_map_iff in C. destruct C as (a & Ea & Ha). apply (N2 a (name, ch, kg, kz, full) ltac:(apply in_or_app; left; exact Ha) ltac:(apply in_or_app; right; left; reflexivity)). exact Ea. }
  intros e Hc. unfold calibrated_table. rewrite Es, map_app, calibrate_columns_app, E1. cbn [obind map calibrate_columns step_of]. rewrite Hc. reflexivity.
Qed.
Lemma column_absent f c : ~ In c (map fst f) -> column f c = None.
Proof. intros H. destruct (column f c) as [v|] eqn:E; [|reflexivity]. exfalso. apply H. apply column_some in E. apply (in_map fst) in E. exact E. Qed.
(** C114: the first channel that cannot be calibrated stops the script: no such column or setting, a setting or a reading that is a text. *)
Theorem C114_channels : forall d bias n Rw before name ch kg kz full after, S_Toml.distinct d -> ~ In (lit "Sensor") (map fst (top d)) -> S_Table.table Rw n ->
  channels = before ++ (name, ch, kg, kz, full) :: after -> Forall (settled d Rw) before ->
  let fails e := calibrated_table d bias Rw = Some (Raise e) in
  (~ In (lit ch) (map fst Rw) -> fails KeyError) /\
  forall cs, has_column Rw (lit ch) cs ->
    ((forall v, ~ stored d (lit kg) v) -> fails KeyError) /\
    (forall s, stored d (lit kg) (TStr s) -> fails TypeError) /\
    forall g, setting d kg g ->
      (Exists (fun c => exists s, c = Txt s) cs -> fails TypeError) /\
      forall vs, cs = map number vs ->
        ((forall v, ~ stored d (lit kz) v) -> fails KeyError) /\ (forall s, stored d (lit kz) (TStr s) -> fails TypeError).
Proof.
  intros d bias n Rw before name ch kg kz full after D Ns Ht E F fails. destruct (calibrated_prefix d bias n Rw before name ch kg kz full after D Ht E F) as (R1 & Ec & K).
  unfold fails. clear fails. unfold calibrate_column, get_column in K. rewrite Ec in K. split; [intros Hn; apply K; rewrite (column_absent _ _ Hn); reflexivity|].
  intros cs Hc. rewrite (column_has _ _ _ (proj1 Ht) Hc) in K. cbn [bind] in K. split; [|split].
  - intros Hn. apply K. rewrite (sensor_absent d (lit kg) Ns Hn). reflexivity.
  - intros s Hs. apply K. rewrite (sensor_stored d (lit kg) _ D Hs). reflexivity.
  - intros g Hg. destruct (sensor_setting d kg g D Hg) as (f1 & y1 & E1 & F1 & _). rewrite E1 in K. cbn [bind obind fst snd] in K. rewrite F1 in K. split.
    + intros Hx. apply K. assert (M : mapM (scale_cell y1 full) cs = Raise TypeError); [|rewrite M; reflexivity].
      clear - Hx. induction cs as [|c cs IH]; [inversion Hx|]. cbn [mapM]. destruct c; cbn [scale_cell bind]; try reflexivity; (inversion Hx as [? ? (s & Q)|? ? Q]; subst; [discriminate|rewrite (IH Q); reflexivity]).
    + intros vs ->. assert (M : exists y, mapM (scale_cell y1 full) (map number vs) = Ok y).
      { clear. induction vs as [|[v|] vs [y IH]]; cbn [map number mapM scale_cell bind]; [eexists; reflexivity|rewrite IH; eexists; reflexivity|rewrite IH; eexists; reflexivity]. }
      destruct M as (y & M). rewrite M in K. cbn [bind obind] in K. split.
      * intros Hn. apply K. rewrite (sensor_absent d (lit kz) Ns Hn). reflexivity.
      * intros s Hs. apply K. rewrite (sensor_stored d (lit kz) _ D Hs). reflexivity.
Qed.
Print Assumptions C114_channels.

(** C114: when the script stops, in the order of its steps. *)
Theorem C114_failures : forall argsort fsys td iso ship nav_paths dgs_paths bias raw_paths ini,
  let fails e := raw_comp argsort fsys td iso ship nav_paths dgs_paths bias raw_paths ini = Some (Raise e) in
  let anomaly := dgs_script argsort fsys td ship (Some (lit "GPGGA")) false nav_paths dgs_paths (Q2R bias) 1 in
  (forall e, anomaly = Raise e -> fails e) /\
  forall data faa full, anomaly = Ok (data, faa, full) ->
    (forall fsys' e, clean_files fsys raw_paths = (fsys', Raise e) -> fails e) /\
    forall fsys' paths, clean_files fsys raw_paths = (fsys', Ok paths) ->
      (forall e, read_dgs_raw fsys' td iso paths ship true = Raise e -> fails e) /\
      forall Rw n, read_dgs_raw fsys' td iso paths ship true = Ok Rw -> S_Table.table Rw n ->
        (forall e, meter_conf fsys' ini = Some (Raise e) -> fails e) /\
        forall d, meter_conf fsys' ini = Some (Ok d) -> S_Toml.distinct d ->
          (forall e, calibrated_table d bias Rw = Some (Raise e) -> fails e) /\
          (Forall (settled d Rw) channels ->
             forall ts gs, NoDup (map fst data) -> has_column data (lit "date_time") (map Time ts) -> has_column data (lit "rgrav") gs ->
               ((len ts <= 500)%nat -> fails IndexError) /\
               ((500 < len ts)%nat ->
                  (~ In (lit "date_time") (map fst Rw) -> fails AttributeError) /\
                  forall rts, has_column Rw (lit "date_time") rts ->
                    Forall (fun c => c = NaN \/ exists t i, c = Time t /\ (t == i # 1000000)%Q /\ in_calendar i) rts ->
                    (In NaN rts -> fails ValueError) /\
                    (~ In NaN rts -> (len faa <= 1440)%nat -> fails ValueError))).
Proof.
  intros argsort fsys td iso ship nav_paths dgs_paths bias raw_paths ini fails anomaly. unfold fails, anomaly. clear fails anomaly. unfold raw_comp. split.
  - intros e He. unfold dgs_script in *. destruct (script_nav fsys ship (Some (lit "GPGGA")) false nav_paths) as [nav|e']; cbn [bind obind] in *; [|congruence]. rewrite He. reflexivity.
  - intros data faa full Ha. assert (Hn : exists nav, script_nav fsys ship (Some (lit "GPGGA")) false nav_paths = Ok nav).
    { unfold dgs_script in Ha. destruct (script_nav fsys ship (Some (lit "GPGGA")) false nav_paths) as [nav|e']; [eexists; reflexivity|discriminate]. }
    destruct Hn as (nav & En). rewrite En. cbn [bind]. rewrite Ha. cbn [bind obind]. clear Ha En. split; [intros fsys' e ->; reflexivity|].
    intros fsys' paths ->. cbn [bind]. split; [intros e ->; reflexivity|]. intros Rw n -> Tr. cbn [obind]. split; [intros e ->; reflexivity|].
    intros d -> D. cbn [obind]. split; [intros e ->; reflexivity|]. intros HC ts gs Nd Hd Hg.
    destruct (calibrated_table_ok d bias n Rw D Tr HC) as (R' & Ec & Cm). rewrite Ec. cbn [obind]. pose proof Cm as (TR & Kp & Cc & _).
    pose proof (get_column_ok _ _ _ Nd Hd) as Gd. rewrite Gd. cbn [bind]. rewrite nth_error_map. split.
    + intros H. rewrite (proj2 (nth_error_None ts 500)) by exact H. reflexivity.
    + intros H. rewrite (nth_error_nth' ts 0%Q) by exact H. cbn [option_map bind].
      assert (N0 : nth 0 (map Time ts) NaN = Time (nth 0 ts 0%Q)) by (destruct ts; [cbn [len] in H; lia|reflexivity]). rewrite N0. clear N0.
      assert (W : forall a b l f v, column f (lit "date_time") = Some l -> Forall (fun c => c = NaN \/ exists t, c = Time t) l -> forall c, column f c = Some v -> exists w, window_curve a b f c = Ok w).
      { clear. intros a b l f v H1 F c H2. unfold window_curve, get_column. rewrite H1, H2. cbn [bind].
        assert (M : exists m, mapM (in_window a b) l = Ok m).
        { clear - F. induction F as [|x l Hx _ (m & IH)]; [exists []; reflexivity|]. cbn [mapM]. destruct Hx as [->|(t & ->)]; cbn [in_window bind]; rewrite IH; eexists; reflexivity. }
        destruct M as (m & ->). eexists. reflexivity. }
      destruct (W (Time (nth 0 ts 0%Q)) (Time (nth 500 ts 0%Q)) (map Time ts) data gs) with (c := lit "rgrav") as (lap & ->);
        [apply column_has; assumption|apply Forall_forall; intros x Hx; apply in_map_iff in Hx; destruct Hx as (t & <- & _); right; eexists; reflexivity|apply column_has; assumption|]. cbn [bind].
      assert (Kd : column R' (lit "date_time") = column Rw (lit "date_time")).
      { apply (calibrated_table_keeps d bias _ _ _ Ec); [vm_compute; intros Q; repeat (destruct Q as [Q|Q]; [discriminate|]); contradiction|discriminate]. }
      split; [intros Hn; unfold window_curve; rewrite Kd, (column_absent _ _ Hn); reflexivity|]. intros rts Hr Fr.
      rewrite (column_has _ _ _ (proj1 Tr) Hr) in Kd.
      assert (HG : In ("grav_cal", "Gravity", "GravCal", "g0", 8388607%Q)%string channels) by (left; reflexivity).
      pose proof (proj1 (Forall_forall _ _) HC _ HG) as ((g & Sg) & (z & Sz) & vs & Hv). destruct (Cc _ _ _ _ _ _ _ _ HG Sg Sz Hv) as (ys & Hys & _).
      destruct (W (Time (nth 0 ts 0%Q)) (Time (nth 500 ts 0%Q)) rts R' ys Kd) with (c := lit "grav_cal") as (ser & ->);
        [apply (Forall_impl) with (2 := Fr); intros c [Q|(t & i & Q & _)]; [left; exact Q|right; eexists; exact Q]|apply column_has; [exact (proj1 TR)|exact Hys]|]. cbn [bind].
      unfold get_column. rewrite Kd. cbn [bind]. split.
      * intros Hn. assert (M : mapM cell_time rts = Raise ValueError); [|rewrite M; reflexivity].
        clear - Hn Fr. induction Fr as [|c rts Hc _ IH]; [contradiction|]. cbn [mapM]. destruct Hc as [->|(t & i & -> & Et & Ic)]; [reflexivity|]. destruct Hn as [C|Hn]; [discriminate|].
        destruct (cell_time_ok t i Et Ic) as (dd & -> & _). cbn [bind]. rewrite (IH Hn). reflexivity.
      * intros Hn Hl. assert (M : exists times us, mapM cell_time rts = Ok times /\ Forall2 utc_of us times).
        { clear - Hn Fr. induction Fr as [|c rts Hc _ IH]; [exists [], []; split; [reflexivity|constructor]|]. destruct Hc as [->|(t & i & -> & Et & Ic)]; [exfalso; apply Hn; left; reflexivity|].
          destruct IH as (times & us & E1 & E2); [intros C; apply Hn; right; exact C|]. destruct (cell_time_ok t i Et Ic) as (dd & Ed & Ud). exists (dd :: times), (i :: us). cbn [mapM]. rewrite Ed. cbn [bind]. rewrite E1. split; [reflexivity|constructor; assumption]. }
        destruct M as (times & us & -> & Fu). cbn [bind].
        assert (S1 : exists tsec, mapM timestamp times = Ok tsec).
        { pose proof (seconds_of us (seq 0 (len us)) times) as S1. eexists. apply S1. clear S1.
          assert (Eu : map (fun i => nth i us 0%Z) (seq 0 (len us)) = us) by (clear; apply nth_ext with (d := 0%Z) (d' := 0%Z); [rewrite map_length, seq_length; reflexivity|]; intros k Hk; rewrite map_length, seq_length in Hk; rewrite (nth_indep _ _ ((fun i => nth i us 0%Z) 0%nat)) by (rewrite map_length, seq_length; exact Hk); rewrite (map_nth (fun i => nth i us 0%Z)), seq_nth by exact Hk; reflexivity).
          rewrite Eu. exact Fu. }
        destruct S1 as (tsec & ->). cbn [bind]. destruct (sync nav tsec) as [lo la]. rewrite (proj1 (C95_missing faa) Hl). reflexivity.
Qed.
Print Assumptions C114_failures.
