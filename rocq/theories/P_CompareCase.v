(** A case of C114: three serial records beside 1441 laptop records. *)
From Coq Require Import ZArith QArith Reals Qreals Lra Lia Ascii String Arith Bool Sorted Permutation List.
From Verif Require Import M_Py M_Np M_Str M_Cal M_Ini M_Toml M_Nmea M_ReadNav M_Table M_Dgs M_Faa M_Nan M_Script M_Serial M_Compare.
From Verif Require Import S_Base S_Str S_Cal S_Toml S_Nmea S_ReadNav S_Table S_Bgm S_Faa S_Nan S_Script S_Serial S_Motion S_Compare.
From Verif Require Import L_Base L_Np L_Str L_Table L_Script L_Dgs P_Nmea P_ReadNav P_Serial P_Calib P_Script P_Meters P_MotionCase P_Compare.
Import ListNotations.
Open Scope Z_scope.
Notation len := List.length.

(** a record at 10:15:00, a broken one, one at 10:15:01 with 4 counts, and one at 10:23:20 *)
Definition serial_text : str :=
  lit "$AT1M-25,3,2,3,4,5,6,7,8,9,10,11,12,13,14,15,16,17,20240229101500" ++ [nl] ++ lit "$AT1M-25,3,2" ++ [nl] ++
  lit "$AT1M-25,4,2,3,4,5,6,7,8,9,10,11,12,13,14,15,16,17,20240229101501" ++ [nl] ++
  lit "$AT1M-25,5,2,3,4,5,6,7,8,9,10,11,12,13,14,15,16,17,20240229102320" ++ [nl].
Definition serial_path : str := lit "d/s.txt".
Definition comp_files (p : str) : option str :=
  if str_eqb p (lit "dgs") then Some dgs_text else if str_eqb p serial_path then Some serial_text else if str_eqb p (lit "Meter.ini") then Some (lit sensor_text) else case_files p.
Definition no_iso (l : list cell) : res (list cell) := Raise ValueError.
Definition comp_cleaned : fs := fs_write comp_files (lit "d/clean_s.txt") (clean_text serial_text).
Lemma comp_clean : clean_files comp_files [serial_path] = (comp_cleaned, Ok [lit "d/clean_s.txt"]).
Proof. reflexivity. Qed.
Definition comp_raw : frame := Eval vm_compute in match read_dgs_raw comp_cleaned day_dates no_iso [lit "d/clean_s.txt"] (lit "Atlantis") true with Ok T => T | Raise _ => [] end.
Definition comp_doc : doc := Eval vm_compute in match meter_conf comp_cleaned (lit "Meter.ini") with Some (Ok d) => d | _ => mk_doc [] [] end.
Lemma comp_read_raw : read_dgs_raw comp_cleaned day_dates no_iso [lit "d/clean_s.txt"] (lit "Atlantis") true = Ok comp_raw.
Proof. vm_cast_no_check (eq_refl (Ok comp_raw)). Qed.
Lemma comp_conf : meter_conf comp_cleaned (lit "Meter.ini") = Some (Ok comp_doc).
Proof. vm_cast_no_check (eq_refl (Some (Ok comp_doc))). Qed.
Definition comp_us : list Z := [1709201700000000; 1709201701000000; 1709202200000000].
Lemma comp_provided : Forall2 (provides comp_files (lit "Atlantis") gp None) [lit "n"] [case_data].
Proof. constructor; [|constructor]. exists case_nav. eexists. split; [reflexivity|]. split; [exact case_lines|exact case_file]. Qed.
Lemma comp_table : S_Table.table comp_raw (len comp_us).
Proof. split; [apply nodupb_ok; reflexivity|]. split; [discriminate|]. repeat constructor. Qed.
Lemma comp_distinct : S_Toml.distinct comp_doc.
Proof. split; [apply nodupb_ok; reflexivity|]. constructor; [apply nodupb_ok; reflexivity|constructor]. Qed.
Ltac find_in := cbn; repeat (first [left; reflexivity | right]).
Lemma comp_settings : Forall (settled comp_doc comp_raw) channels.
Proof.
  repeat (apply Forall_cons; [split; [|split]|]); try apply Forall_nil;
    try (do 3 eexists; split; [left; reflexivity|]; split; [find_in|constructor]).
  - exists [Some 3; Some 4; Some 5]%Q. find_in.
  - exists [Some 2; Some 2; Some 2]%Q. find_in.
  - exists [Some 3; Some 3; Some 3]%Q. find_in.
  - exists [Some 4; Some 4; Some 4]%Q. find_in.
  - exists [Some 5; Some 5; Some 5]%Q. find_in.
  - exists [Some 6; Some 6; Some 6]%Q. find_in.
  - exists [Some 7; Some 7; Some 7]%Q. find_in.
Qed.
Lemma day_at k : (k < 1441)%nat -> nth k day_us 0 = (1709201700 + Z.of_nat k) * 1000000.
Proof. intros H. unfold day_us. apply nth_map_seq_at. exact H. Qed.
Lemma day_distinct : NoDup day_us.
Proof. unfold day_us. apply FinFun.Injective_map_NoDup; [intros a b H; lia|apply seq_NoDup]. Qed.
Example C114_case : exists c t q, raw_comp insertion_sort comp_files day_dates no_iso (lit "Atlantis") [lit "n"] [lit "dgs"] 970000 [serial_path] (lit "Meter.ini") = Some (Ok c) /\
  len (c_laptop c) = 499%nat /\ c_serial c = [(Time t, Num q)] /\ (t == 1709201701)%Q /\ (q == 14.5)%Q /\ c_steps c = [1; 499]%R /\ len (c_faa c) = 1441%nat.
Proof.
  destruct (good_table_ok _ _ _ day_dgs) as (T & gs & Er & M & Hg). rewrite (same_read day_files comp_files day_dates day_dates (lit "dgs") eq_refl) in Er.
  assert (L : (1440 < len day_us)%nat) by (rewrite day_length; lia).
  destruct C114_curves as (h & _ & H).
  destruct (H insertion_sort comp_files day_dates no_iso (lit "Atlantis") gp [lit "n"] [case_data] [lit "dgs"] T day_us gs 970000%Q [serial_path] comp_cleaned [lit "d/clean_s.txt"] comp_raw
    [1709201700.000000; 1709201701.000000; 1709202200.000000]%Q comp_us (lit "Meter.ini") comp_doc insertion_sort_sorts case_ship motion_talker comp_provided Er M L comp_clean comp_read_raw comp_table)
    as (nav & idx & T' & faa & full & c & rows & srows & _ & O & _ & Ec & R).
  - find_in.
  - repeat constructor.
  - repeat constructor; cbn; lia.
  - exact comp_conf.
  - exact comp_distinct.
  - exact comp_settings.
  - clear H. apply day_order in O. subst idx. cbv zeta in R. destruct R as (B & Dl & Nd & Bs & Ds & _ & _ & _ & _ & Ls & Vs & Lf & _).
    assert (Hr : len rows = 499%nat).
    { rewrite (Nd day_distinct). rewrite firstn_length, skipn_length, seq_length. reflexivity. }
    rewrite !seq_nth in Bs by lia. rewrite !day_at in Bs by lia.
    assert (Es : srows = [1%nat]).
    { refine (selected_fun _ _ _ _ _ _ Bs). apply sel_no; [cbn; lia|]. apply sel_yes; [cbn; lia|]. apply sel_no; [cbn; lia|]. constructor. }
    subst srows.
    assert (G : setting comp_doc "GravCal" 8388607) by (do 2 eexists; split; [left; reflexivity|]; split; [find_in|apply (no_int 8388607)]).
    assert (Z0 : setting comp_doc "g0" (inject_Z 105 * Qpower (10 # 1) (-1))) by (do 2 eexists; split; [left; reflexivity|]; split; [find_in|apply no_dec]).
    specialize (Ds _ _ [Some 3; Some 4; Some 5]%Q G Z0 ltac:(find_in)). unfold drawn in Ds. remember (c_serial c) as sc eqn:Esc. inversion Ds as [|? [pt pv] ? rest [(t & Et & Ht) Hv] Hr' ]; subst.
    inversion Hr'; subst. cbn [fst snd nth] in *. inversion Hv as [|a b Hb]; subst.
    exists c, t, b. split; [exact Ec|]. split; [assert (LL : len (c_laptop c) = len rows) by (eapply F2_len; exact Dl); rewrite LL; exact Hr|]. split; [symmetry; assumption|].
    split; [rewrite Ht; reflexivity|]. split.
    { assert (X : (b * 8388607 == 14.5 * 8388607)%Q) by (rewrite Hb; reflexivity). apply (Qmult_inj_r _ _ 8388607); [discriminate|exact X]. }
    split; [|rewrite Lf; exact day_length].
    cbn in Ls. pose proof (Vs 0%nat ltac:(cbn; lia)) as V0. pose proof (Vs 1%nat ltac:(cbn; lia)) as V1. destruct (c_steps c) as [|x [|y [|]]]; try discriminate Ls. cbn in V0, V1. rewrite V0, V1. f_equal; [lra|f_equal; lra].
Qed.
(** Settings that lack the zero of the first channel, or give it as a text. *)
Example C114_channels_case :
  calibrated_table (mk_doc [] [(lit "Sensor", [(lit "GravCal", TInt 8388607)])]) 0 comp_raw = Some (Raise KeyError) /\
  calibrated_table (mk_doc [] [(lit "Sensor", [(lit "GravCal", TInt 8388607); (lit "g0", TStr (lit "10,5"))])]) 0 comp_raw = Some (Raise TypeError).
Proof. split; reflexivity. Qed.
(** Without the ini file the script stops, whatever the serial files hold. *)
Example C114_failures_case : exists T' faa full, dgs_script insertion_sort comp_files day_dates (lit "Atlantis") (Some (lit "GPGGA")) false [lit "n"] [lit "dgs"] (Q2R 970000) 1 = Ok (T', faa, full) /\
  raw_comp insertion_sort comp_files day_dates no_iso (lit "Atlantis") [lit "n"] [lit "dgs"] 970000 [serial_path] (lit "other.ini") = Some (Raise FileNotFoundError).
Proof.
  destruct C114_case as (c & t & q & E & _).
  destruct (C114_failures insertion_sort comp_files day_dates no_iso (lit "Atlantis") [lit "n"] [lit "dgs"] 970000 [serial_path] (lit "Meter.ini")) as [Fe _].
  destruct (C114_failures insertion_sort comp_files day_dates no_iso (lit "Atlantis") [lit "n"] [lit "dgs"] 970000 [serial_path] (lit "other.ini")) as [_ F].
  destruct (dgs_script insertion_sort comp_files day_dates (lit "Atlantis") (Some (lit "GPGGA")) false [lit "n"] [lit "dgs"] (Q2R 970000) 1) as [[[T' faa] full]|e].
  - exists T', faa, full. split; [reflexivity|]. destruct (F _ _ _ eq_refl) as [_ F1]. destruct (F1 _ _ comp_clean) as [_ F2]. apply (proj1 (F2 _ _ comp_read_raw comp_table)). reflexivity.
  - rewrite (Fe e eq_refl) in E. clear - E. discriminate E.
Qed.
