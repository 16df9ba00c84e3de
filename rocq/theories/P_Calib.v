(** Property C93: calibration of the raw channels with the cleaned meter file. *)
From Coq Require Import ZArith QArith Qfield Ascii String Bool Lia List.
From Verif Require Import M_Py M_Str S_Str L_Str M_Ini S_Ini L_Ini M_Toml S_Toml L_Toml P_Toml.
Import ListNotations.
Open Scope Z_scope.

Lemma assoc_found {A} k v (l : list (str * A)) : NoDup (map fst l) -> In (k, v) l -> assoc k l = Some v.
Proof.
  induction l as [|[k' v'] l IH]; intros N H; [destruct H|]. cbn [assoc map fst] in *. inversion N as [|? ? N1 N2]; subst.
  destruct H as [E|H].
  - injection E as -> ->. replace (str_eqb k k) with true by (symmetry; apply str_eqb_eq; reflexivity). reflexivity.
  - destruct (str_eqb k' k) eqn:E; [|exact (IH N2 H)]. apply str_eqb_eq in E. subst k'. exfalso. apply N1.
    apply (in_map fst) in H. exact H.
Qed.
Lemma nodup_right (A B : list str) : NoDup (A ++ B) -> NoDup B.
Proof. induction A as [|a A IH]; intros H; [exact H|]. inversion H; subst. apply IH. assumption. Qed.
Lemma nodup_disjoint (A B : list str) x : NoDup (A ++ B) -> In x B -> ~ In x A.
Proof.
  intros N HB HA. apply in_split in HA. destruct HA as [A1 [A2 ->]]. rewrite <- app_assoc in N. cbn [app] in N.
  apply NoDup_remove_2 in N. apply N. apply in_or_app. right. apply in_or_app. right. exact HB.
Qed.
(** a stored value *)
Definition stored (d : doc) (k : str) (v : tval) : Prop := exists t, In (lit "Sensor", t) (tables d) /\ In (k, v) t.
Lemma sensor_stored d k v : distinct d -> stored d k v ->
  sensor d k = match v with
               | TInt z => Ok (FDec z 0)
               | TFloat f => Ok f
               | TBool b => Ok (FDec (if b then 1 else 0) 0)
               | TStr _ => Raise TypeError
               end.
Proof.
  intros [D1 D2] [t [H1 H2]]. unfold sensor.
  assert (Hs : In (lit "Sensor") (map fst (tables d))) by (apply (in_map fst) in H1; exact H1).
  rewrite (proj2 (assoc_none (lit "Sensor") (top d))) by exact (nodup_disjoint _ _ _ D1 Hs).
  rewrite (assoc_found (lit "Sensor") t (tables d) (nodup_right _ _ D1) H1).
  rewrite Forall_forall in D2. specialize (D2 _ H1). cbn [snd] in D2. rewrite (assoc_found k v t D2 H2). reflexivity.
Qed.
Lemma sensor_absent d k : ~ In (lit "Sensor") (map fst (top d)) -> (forall v, ~ stored d k v) -> sensor d k = Raise KeyError.
Proof.
  intros Ht Hn. unfold sensor. rewrite (proj2 (assoc_none _ _) Ht).
  assert (A : forall B (l : list (str * B)) x y, assoc x l = Some y -> In (x, y) l).
  { induction l as [|[a b] l IH]; intros x y E; cbn [assoc] in E; [discriminate|].
    destruct (str_eqb a x) eqn:Ea; [apply str_eqb_eq in Ea; injection E as <-; left; congruence|right; exact (IH x y E)]. }
  destruct (assoc (lit "Sensor") (tables d)) as [t|] eqn:Es; [|reflexivity].
  destruct (assoc k t) as [v|] eqn:Ek; [|reflexivity]. exfalso. apply (Hn v). exists t. split; apply A; assumption.
Qed.
Lemma sensor_setting d k x : distinct d -> setting d k x -> exists f y, sensor d (lit k) = Ok f /\ fin f = Some y /\ (y == x)%Q.
Proof.
  intros D [t [v [H1 [H2 H3]]]]. rewrite (sensor_stored d (lit k) v D (ex_intro _ t (conj H1 H2))).
  destruct H3 as [z|m e]; eexists _, _; (split; [reflexivity|]); (split; [reflexivity|]); unfold dec_Q; [|reflexivity].
  change (Qpower (10 # 1) 0) with 1%Q. ring.
Qed.
Lemma calibrate_setting full d kg kz g z raw : ~ (full == 0)%Q -> distinct d -> setting d kg g -> setting d kz z ->
  exists c, calibrate full d (lit kg) (lit kz) raw = Ok (Some c) /\ calibrated_by full g z raw c.
Proof.
  intros Hf D Hg Hz. destruct (sensor_setting d kg g D Hg) as [f1 [y1 [E1 [F1 Q1]]]].
  destruct (sensor_setting d kz z D Hz) as [f2 [y2 [E2 [F2 Q2]]]]. unfold calibrate. rewrite E1, E2. cbn [bind]. rewrite F1, F2.
  eexists. split; [reflexivity|]. unfold calibrated_by. induction raw as [|a raw IH]; cbn [map]; constructor; [|exact IH].
  rewrite Q1, Q2. field. exact Hf.
Qed.

(** C93: with all settings in section Sensor, the four 24-bit channels are scaled by gain per 8388607 counts and the three others by
    gain per count, and shifted by their zero. *)
Theorem C93_columns : forall d raw g0 z0 g1 z1 g2 z2 g3 z3 g4 z4 g5 z5 g6 z6, distinct d ->
  setting d "GravCal" g0 -> setting d "g0" z0 -> setting d "LongCal" g1 -> setting d "LongOffset" z1 ->
  setting d "CrossCal" g2 -> setting d "CrossOffset" z2 -> setting d "beamgain" g3 -> setting d "beamzero" z3 ->
  setting d "stempgain" g4 -> setting d "stempoffset" z4 -> setting d "pressgain" g5 -> setting d "presszero" z5 ->
  setting d "Etempgain" g6 -> setting d "Etempzero" z6 ->
  exists grav long cross beam temp pressure electemp,
    calibrated d raw = Ok (map Some [grav; long; cross; beam; temp; pressure; electemp]) /\
    calibrated_by 8388607 g0 z0 (raw (lit "Gravity")) grav /\ calibrated_by 8388607 g1 z1 (raw (lit "Long")) long /\
    calibrated_by 8388607 g2 z2 (raw (lit "Cross")) cross /\ calibrated_by 8388607 g3 z3 (raw (lit "Beam")) beam /\
    calibrated_by 1 g4 z4 (raw (lit "Temp")) temp /\ calibrated_by 1 g5 z5 (raw (lit "Pressure")) pressure /\
    calibrated_by 1 g6 z6 (raw (lit "ElecTemp")) electemp.
Proof.
  intros d raw g0 z0 g1 z1 g2 z2 g3 z3 g4 z4 g5 z5 g6 z6 D G0 Z0 G1 Z1 G2 Z2 G3 Z3 G4 Z4 G5 Z5 G6 Z6.
  assert (Nf : ~ (cal_factor == 0)%Q) by (unfold cal_factor, Qeq; cbn; discriminate).
  assert (N1 : ~ (1 == 0)%Q) by discriminate.
  destruct (calibrate_setting cal_factor d _ _ _ _ (raw (lit "Gravity")) Nf D G0 Z0) as [c0 [E0 C0]].
  destruct (calibrate_setting cal_factor d _ _ _ _ (raw (lit "Long")) Nf D G1 Z1) as [c1 [E1 C1]].
  destruct (calibrate_setting cal_factor d _ _ _ _ (raw (lit "Cross")) Nf D G2 Z2) as [c2 [E2 C2]].
  destruct (calibrate_setting cal_factor d _ _ _ _ (raw (lit "Beam")) Nf D G3 Z3) as [c3 [E3 C3]].
  destruct (calibrate_setting 1 d _ _ _ _ (raw (lit "Temp")) N1 D G4 Z4) as [c4 [E4 C4]].
  destruct (calibrate_setting 1 d _ _ _ _ (raw (lit "Pressure")) N1 D G5 Z5) as [c5 [E5 C5]].
  destruct (calibrate_setting 1 d _ _ _ _ (raw (lit "ElecTemp")) N1 D G6 Z6) as [c6 [E6 C6]].
  exists c0, c1, c2, c3, c4, c5, c6. split; [|repeat (split; [assumption|]); assumption].
  unfold calibrated, channels24, channels10. cbn [mapM fst snd]. rewrite E0, E1, E2, E3. cbn [bind]. rewrite E4, E5, E6. reflexivity.
Qed.
Print Assumptions C93_columns.

(** Gravity: the meter bias is added. *)
Theorem C93_gravity : forall d raw bias g z cols, distinct d -> setting d "GravCal" g -> setting d "g0" z ->
  calibrated d raw = Ok cols ->
  exists c, raw_grav d raw bias = Ok (Some c) /\ calibrated_by 8388607 g (z + bias) (raw (lit "Gravity")) c.
Proof.
  intros d raw bias g z cols D Hg Hz Ec.
  assert (Nf : ~ (cal_factor == 0)%Q) by (unfold cal_factor, Qeq; cbn; discriminate).
  destruct (calibrate_setting cal_factor d _ _ _ _ (raw (lit "Gravity")) Nf D Hg Hz) as [c [E C]].
  unfold raw_grav. rewrite Ec. cbn [bind].
  assert (Eh : exists r, cols = Some c :: r).
  { unfold calibrated in Ec. unfold channels24 in Ec. cbn [mapM fst snd] in Ec. rewrite E in Ec. cbn [bind] in Ec.
    repeat match type of Ec with bind ?m _ = _ => let X := fresh in destruct m eqn:X; cbn [bind] in Ec; [|discriminate] end.
    repeat match goal with H : bind ?m _ = Ok _ |- _ => let X := fresh in destruct m eqn:X; cbn [bind] in H; [|discriminate] end.
    injection Ec as <-. repeat match goal with H : Ok _ = Ok _ |- _ => injection H as <- end. eexists. reflexivity. }
  destruct Eh as [r ->]. eexists. split; [reflexivity|]. unfold calibrated_by in *. clear -C.
  induction C as [|a b l1 l2 H _ IH]; cbn [map]; constructor; [|exact IH].
  change (8388607 # 1)%Q with cal_factor. setoid_replace ((b + bias) * cal_factor)%Q with (b * cal_factor + bias * cal_factor)%Q by ring.
  rewrite H. ring.
Qed.
Print Assumptions C93_gravity.

(** A full-scale count gives gain plus zero, no count the zero, a negative full-scale count zero minus gain. *)
Theorem C93_full_scale : forall g z x y, calibrated_by 8388607 g z x y -> forall i,
  (nth_error x i = Some 8388607%Q -> exists b, nth_error y i = Some b /\ (b == g + z)%Q) /\
  (nth_error x i = Some 0%Q -> exists b, nth_error y i = Some b /\ (b == z)%Q) /\
  (nth_error x i = Some (-8388607)%Q -> exists b, nth_error y i = Some b /\ (b == z - g)%Q).
Proof.
  intros g z x y H. induction H as [|a b x y Hab _ IH]; intros i.
  - destruct i; cbn; repeat split; discriminate.
  - destruct i as [|i]; [|exact (IH i)]. cbn [nth_error].
    assert (N : ~ (8388607 == 0)%Q) by discriminate.
    assert (E : (b == (a * g + z * 8388607) / 8388607)%Q) by (rewrite <- Hab; field; exact N).
    repeat split; intros Ha; injection Ha as ->; exists b; (split; [reflexivity|]); rewrite E; field; exact N.
Qed.
Print Assumptions C93_full_scale.

Definition setting_names : list string :=
  ["GravCal"; "g0"; "LongCal"; "LongOffset"; "CrossCal"; "CrossOffset"; "beamgain"; "beamzero"; "stempgain"; "stempoffset";
   "pressgain"; "presszero"; "Etempgain"; "Etempzero"]%string.
Definition usable (d : doc) (k : string) : Prop := exists v, stored d (lit k) v /\ forall s, v <> TStr s.
Lemma usable_ok d k : distinct d -> usable d k -> exists f, sensor d (lit k) = Ok f.
Proof.
  intros D [v [H N]]. rewrite (sensor_stored d (lit k) v D H). destruct v as [b|z|f|s]; try (eexists; reflexivity). exfalso. exact (N s eq_refl).
Qed.
Definition keys_of (l : list (str * (str * str))) : list str := flat_map (fun c => [fst (snd c); snd (snd c)]) l.
Definition readable (d : doc) (k : str) : Prop := exists f, sensor d k = Ok f.
Lemma mapM_all full d raw chans : Forall (readable d) (keys_of chans) ->
  exists c, mapM (fun c => calibrate full d (fst (snd c)) (snd (snd c)) (raw (fst c))) chans = Ok c.
Proof.
  induction chans as [|[n0 [g z]] chans IH]; intros H; [exists []; reflexivity|]. cbn [keys_of flat_map app fst snd] in H.
  inversion H as [|? ? [f1 E1] H1]; subst. inversion H1 as [|? ? [f2 E2] H2]; subst. destruct (IH H2) as [c Ec].
  cbn [mapM fst snd]. unfold calibrate at 1. rewrite E1, E2. cbn [bind]. rewrite Ec. eexists. reflexivity.
Qed.
Lemma mapM_first full d raw e k : sensor d k = Raise e -> forall chans pre post, keys_of chans = pre ++ k :: post ->
  Forall (readable d) pre -> mapM (fun c => calibrate full d (fst (snd c)) (snd (snd c)) (raw (fst c))) chans = Raise e.
Proof.
  intros Hk. induction chans as [|[n0 [g z]] chans IH]; intros pre post E Hp; [destruct pre; discriminate|].
  cbn [keys_of flat_map app fst snd] in E. cbn [mapM fst snd]. unfold calibrate at 1. destruct pre as [|p0 [|p1 pre]].
  - injection E as -> _. rewrite Hk. reflexivity.
  - injection E as -> -> _. inversion Hp as [|? ? [f1 E1] _]; subst. rewrite E1. cbn [bind]. rewrite Hk. reflexivity.
  - injection E as -> -> E. inversion Hp as [|? ? [f1 E1] H1]; subst. inversion H1 as [|? ? [f2 E2] H2]; subst.
    rewrite E1, E2. cbn [bind]. rewrite (IH pre post E H2). reflexivity.
Qed.
Lemma app_cut (A B : list str) : forall pre k post, A ++ B = pre ++ k :: post ->
  (exists p, A = pre ++ k :: p) \/ exists p, pre = A ++ p /\ B = p ++ k :: post.
Proof.
  induction A as [|a A IH]; intros pre k post E; [right; exists pre; split; [reflexivity|exact E]|].
  destruct pre as [|p0 pre]; cbn [app] in E.
  - injection E as -> _. left. exists A. reflexivity.
  - injection E as -> E. destruct (IH pre k post E) as [[p ->]|[p [-> E2]]]; [left; exists p; reflexivity|right; exists p; split; [reflexivity|exact E2]].
Qed.
Lemma calibrated_all d raw : Forall (readable d) (map lit setting_names) -> exists c, calibrated d raw = Ok c.
Proof.
  change (map lit setting_names) with (keys_of channels24 ++ keys_of channels10). intros H. apply Forall_app in H. destruct H as [H1 H2].
  unfold calibrated. destruct (mapM_all cal_factor d raw _ H1) as [a Ea]. destruct (mapM_all 1 d raw _ H2) as [b Eb].
  rewrite Ea. cbn [bind]. rewrite Eb. eexists. reflexivity.
Qed.
Lemma calibrated_first d raw pre k post e : map lit setting_names = pre ++ k :: post -> Forall (readable d) pre ->
  sensor d k = Raise e -> calibrated d raw = Raise e.
Proof.
  change (map lit setting_names) with (keys_of channels24 ++ keys_of channels10). intros E Hp Hk. unfold calibrated.
  destruct (app_cut _ _ _ _ _ E) as [[p E1]|[p [-> E1]]].
  - rewrite (mapM_first cal_factor d raw e k Hk _ pre p E1 Hp). reflexivity.
  - apply Forall_app in Hp. destruct Hp as [H1 H2]. destruct (mapM_all cal_factor d raw _ H1) as [a Ea]. rewrite Ea. cbn [bind].
    rewrite (mapM_first 1 d raw e k Hk _ p post E1 H2). reflexivity.
Qed.

(** The first setting, in the order read, that cannot be used decides: KeyError if it is absent, TypeError if it is a text. *)
Theorem C93_first_failure : forall d raw pre k post, distinct d -> setting_names = pre ++ k :: post -> Forall (usable d) pre ->
  ((forall v, ~ stored d (lit k) v) -> ~ In (lit "Sensor") (map fst (top d)) -> calibrated d raw = Raise KeyError) /\
  (forall s, stored d (lit k) (TStr s) -> calibrated d raw = Raise TypeError).
Proof.
  intros d raw pre k post D E Hp.
  assert (E' : map lit setting_names = map lit pre ++ lit k :: map lit post) by (rewrite E, map_app; reflexivity).
  assert (R : Forall (readable d) (map lit pre)).
  { clear -D Hp. induction Hp as [|x l H _ IH]; constructor; [exact (usable_ok d x D H)|exact IH]. }
  split; [intros Hn Ht|intros s Hs]; apply (calibrated_first d raw (map lit pre) (lit k) (map lit post) _ E' R).
  - apply sensor_absent; assumption.
  - rewrite (sensor_stored d (lit k) _ D Hs). reflexivity.
Qed.
Print Assumptions C93_first_failure.
(** It succeeds exactly when every setting is there and is not a text. *)
Theorem C93_succeeds_iff : forall d raw, distinct d -> ((exists c, calibrated d raw = Ok c) <-> Forall (usable d) setting_names).
Proof.
  intros d raw D. split.
  - intros [c Ec]. destruct (Forall_Exists_dec (fun k => exists f, sensor d (lit k) = Ok f)) with (l := setting_names) as [F|F].
    { intros k. destruct (sensor d (lit k)) as [f|e]; [left; eexists; reflexivity|right; intros [f E]; discriminate]. }
    + eapply Forall_impl; [|exact F]. intros k [f Hf]. cbv beta in Hf. unfold sensor in Hf.
      destruct (assoc (lit "Sensor") (top d)); [discriminate|]. destruct (assoc (lit "Sensor") (tables d)) as [t|] eqn:E1; [|discriminate].
      destruct (assoc (lit k) t) as [v|] eqn:E2; [|discriminate].
      assert (A : forall B (l : list (str * B)) x y, assoc x l = Some y -> In (x, y) l).
      { induction l as [|[a b] l IH]; intros x y E; cbn [assoc] in E; [discriminate|].
        destruct (str_eqb a x) eqn:Ea; [apply str_eqb_eq in Ea; injection E as <-; left; congruence|right; exact (IH x y E)]. }
      exists v. split; [exists t; split; apply A; assumption|]. intros s ->. discriminate.
    + exfalso. assert (G : forall l, Exists (fun k => ~ exists f, sensor d (lit k) = Ok f) l ->
                exists pre k post e, l = pre ++ k :: post /\ Forall (fun x => readable d (lit x)) pre /\ sensor d (lit k) = Raise e).
      { induction l as [|x l IH]; intros H; [inversion H|]. destruct (sensor d (lit x)) as [f|e] eqn:Ex.
        - inversion H as [? ? Hx|? ? Hl]; subst; [exfalso; apply Hx; eexists; exact Ex|].
          destruct (IH Hl) as [pre [k [post [e [-> [P1 P2]]]]]]. exists (x :: pre), k, post, e. split; [reflexivity|]. split; [|exact P2].
          constructor; [exists f; exact Ex|exact P1].
        - exists [], x, l, e. split; [reflexivity|]. split; [constructor|exact Ex]. }
      destruct (G _ F) as [pre [k [post [e [E [P1 P2]]]]]].
      assert (E' : map lit setting_names = map lit pre ++ lit k :: map lit post) by (rewrite E, map_app; reflexivity).
      rewrite (calibrated_first d raw _ _ _ e E') in Ec; [discriminate| |exact P2].
      clear -P1. induction P1; constructor; assumption.
  - intros F. apply calibrated_all. induction F as [|x l H _ IH]; constructor; [exact (usable_ok d x D H)|exact IH].
Qed.
Print Assumptions C93_succeeds_iff.

(** From the ini file to the gravity column. *)
Theorem C93_from_file : forall f p text t ls d raw bias g z, f p = Some text -> substituted text t -> lines_of t ls -> ini_doc ls d ->
  distinct d -> Forall (usable d) setting_names -> setting d "GravCal" g -> setting d "g0" z ->
  exists c, meter_conf f p = Some (Ok d) /\ raw_grav d raw bias = Ok (Some c) /\
    calibrated_by 8388607 g (z + bias) (raw (lit "Gravity")) c.
Proof.
  intros f p text t ls d raw bias g z Ef Hs Hl Hi D F Hg Hz.
  destruct (proj2 (C93_succeeds_iff d raw D) F) as [cols Ec].
  destruct (C93_gravity d raw bias g z cols D Hg Hz Ec) as [c [E1 E2]]. exists c. split; [|split; assumption].
  exact (C92_loads f p text t ls d Ef Hs Hl Hi D).
Qed.
Print Assumptions C93_from_file.

Definition sensor_text : string :=
  ("[Sensor]" ++ n ++ "GravCal = 8388607" ++ n ++ "g0 = 10.5" ++ n ++ "LongCal = 1" ++ n ++ "LongOffset=0" ++ n ++ "CrossCal=1" ++ n ++
   "CrossOffset=0" ++ n ++ "beamgain=1" ++ n ++ "beamzero=0" ++ n ++ "stempgain=2e-1" ++ n ++ "stempoffset=-3" ++ n ++ "pressgain=1" ++ n ++
   "presszero=0" ++ n ++ "Etempgain=1" ++ n ++ "Etempzero=0")%string.
Example C93_case : exists d, meter_conf (one_file "Meter.ini" sensor_text) (lit "Meter.ini") = Some (Ok d) /\
  (exists c, raw_grav d (fun _ => [3%Q]) 100 = Ok (Some [c]) /\ (c == 227 # 2)%Q) /\
  (exists a b c e x g h, calibrated d (fun _ => [3%Q]) = Ok [a; b; c; e; Some [x]; g; h] /\ (x == -12 # 5)%Q).
Proof.
  eexists. split; [vm_compute; reflexivity|]. split.
  - eexists. split; [vm_compute; reflexivity|]. vm_compute. reflexivity.
  - eexists _, _, _, _, _, _, _. split; [vm_compute; reflexivity|]. vm_compute. reflexivity.
Qed.
Example C93_failures_case :
  (exists d, meter_conf (one_file "Meter.ini" ("[Sensor]" ++ n ++ "GravCal = 3" ++ n ++ "g0 = 1,5")) (lit "Meter.ini") = Some (Ok d) /\
     calibrated d (fun _ => []) = Raise TypeError) /\
  (exists d, meter_conf (one_file "Meter.ini" ("[Sensor]" ++ n ++ "gravcal = 3" ++ n ++ "g0 = 1")) (lit "Meter.ini") = Some (Ok d) /\
     calibrated d (fun _ => []) = Raise KeyError).
Proof. split; eexists; (split; [vm_compute; reflexivity|vm_compute; reflexivity]). Qed.
