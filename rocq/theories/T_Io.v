(** The cases of /repo/shipgrav/tests/test_io.py (and the status word of test_utils.py), computed with the
    model on the same files.  These are tests of the model against values that the authors of the code
    assert, not proofs of properties.  Differences in precision: times and products are exact here, so
    floats such as 127730.60800402702 are compared with a tolerance. *)
From Coq Require Import ZArith QArith Reals Lra Ascii String Bool List.
From Verif Require M_Status.
From Verif Require Import M_Py M_Str M_Cal M_Ini M_Nmea M_ReadNav M_Table M_Bgm M_Dgs M_Other T_Files.
Import ListNotations.
Open Scope Z_scope.

(** ** Dates: a stand-in for [pd.to_datetime] on the formats that occur in the files *)
Definition clock (ds : str) : res (Z * Z * Z * Z) :=
  do h <- directive 1 2 (lit ":") ds;
  do mi <- directive 1 2 (lit ":") (snd h);
  do sc <- directive 1 2 (lit ".") (snd mi);
  let '(f, r) := span is_digit (snd sc) in
  if str_eqb r [] || str_eqb r (lit "Z") then
    Ok (digits_val (fst h), digits_val (fst mi), digits_val (fst sc), digits_val f * 10 ^ Z.of_nat (6 - List.length f))
  else Raise ValueError.
Definition stamp_of (y mo d : str) (c : res (Z * Z * Z * Z)) : res cell :=
  do c <- c;
  let '(h, mi, s, us) := c in
  do t <- dt_us (digits_val y) (digits_val mo) (digits_val d) h mi s us; Ok (Time (t # 1000000)).
(** 2022/07/01 12:17:33.492 *)
Definition date_ymd (s : str) : res cell :=
  do y <- directive 4 4 (lit "/") s; do mo <- directive 2 2 (lit "/") (snd y); do d <- directive 2 2 (lit " ") (snd mo);
  stamp_of (fst y) (fst mo) (fst d) (clock (snd d)).
(** 03/13/2022 00:00:02.449 *)
Definition date_mdy (s : str) : res cell :=
  do mo <- directive 2 2 (lit "/") s; do d <- directive 2 2 (lit "/") (snd mo); do y <- directive 4 4 (lit " ") (snd d);
  stamp_of (fst y) (fst mo) (fst d) (clock (snd y)).
(** 2022-11-07T17:13:45.329611Z *)
Definition date_iso (s : str) : res cell :=
  do y <- directive 4 4 (lit "-") s; do mo <- directive 2 2 (lit "-") (snd y); do d <- directive 2 2 (lit "T") (snd mo);
  stamp_of (fst y) (fst mo) (fst d) (clock (snd d)).
Definition dates (f : str -> res cell) (l : list cell) : res (list cell) :=
  mapM (fun c => match c with Txt s => f s | NaN => Ok NaN | _ => Raise TypeError end) l.

(** ** One file, and a cell of its table *)
Definition one (text : str) : fs := fun _ => Some text.
Definition paths : list str := [lit "f"].
Definition first (r : res (option frame)) (c : string) : option cell :=
  match r with Ok (Some f) => match column f (lit c) with Some (x :: _) => Some x | _ => None end | _ => None end.
Definition firstf (r : res frame) (c : string) : option cell :=
  match r with Ok f => first (Ok (Some f)) c | Raise _ => None end.
(** a number within [tol] of [q] *)
Definition near (tol : Q) (x : option cell) (q : Q) : bool :=
  match x with Some (Num v) | Some (Time v) => Qle_bool (Qabs.Qabs (v - q)) tol | _ => false end.
Definition at_time (x : option cell) (us : Z) : bool :=
  match x with Some (Time v) => Qeq_bool v (us # 1000000) | _ => false end.
Definition rows (r : res (option frame)) : nat := match r with Ok (Some f) => nrows f | _ => 0 end.

(** ** Gravimeter files *)
Example test_read_bgm_rgs :
  let r := read_bgm_rgs (one f_AT05_01_bgm_RGS) (dates date_ymd) paths (lit "Atlantis") in
  at_time (first r "date_time") 1656633600445000 && near 0 (first r "grav") (980329272 # 1000) && (rows r =? 2)%nat = true.
Proof. vm_compute. reflexivity. Qed.
Example test_read_bgm_raw_Atlantis :
  let r := read_bgm_raw (one f_AT01_bgm_BGM) (dates date_ymd) paths (lit "Atlantis") None None in
  at_time (first r "date_time") 1656677853492000 && near 0 (first r "counts") 24963
  && near 0 (first r "rgrav") (124666983189576 # 1000000000) && (rows r =? 4)%nat = true.
Proof. vm_compute. reflexivity. Qed.
Example test_read_bgm_raw_Thompson :
  let r := read_bgm_raw (one f_TN400_bgm_Raw) (dates date_mdy) paths (lit "Thompson") None None in
  at_time (first r "date_time") 1647129602449000 && near 0 (first r "counts") 25529
  && near (1 # 10000000000) (first r "rgrav") (12773060800402702 # 100000000000) && (rows r =? 2)%nat = true.
Proof. vm_compute. reflexivity. Qed.
Example test_read_bgm_raw_Langseth :
  let r := read_bgm_raw (one f_MGL2003_bgm_y2020d244) (dates date_mdy) paths (lit "Langseth") None None in
  at_time (first r "date_time") 1598832000324400 && near 0 (first r "counts") 25229 && near 0 (first r "rgrav") 126145
  && (rows r =? 4)%nat = true.
Proof. vm_compute. reflexivity. Qed.
Example test_read_bgm_raw_Revelle :
  let r := read_bgm_raw (one f_RR2212_bgm_txt) (dates date_iso) paths (lit "Revelle") None None in
  at_time (first r "date_time") 1667841225329611 && near 0 (first r "counts") 24882
  && near 0 (first r "rgrav") (1244052114591 # 10000000) && (rows r =? 6)%nat = true.
Proof. vm_compute. reflexivity. Qed.
Example test_read_bgm_raw_nope :
  read_bgm_raw (one f_TN400_bgm_Raw) (dates date_mdy) paths (lit "Boaty McBoatface") None None = Ok None.
Proof. vm_compute. reflexivity. Qed.
Example test_read_dgs_dat_general :
  let r := read_dgs_laptop (one f_DGStest_laptop_dat) (dates date_mdy) paths (lit "DGStest") None in
  at_time (first r "date_time") 1562803200000000 && near 0 (first r "ve") (81098 # 100000)
  && near (1 # 10000) (first r "rgrav") (12295691114 # 1000000) && (rows r =? 20)%nat = true.
Proof. vm_compute. reflexivity. Qed.
Example test_read_dgs_dat_Thompson :
  let r := read_dgs_laptop (one f_TN400_dgs_proc_Raw) (dates date_mdy) paths (lit "Thompson") None in
  at_time (first r "date_time") 1647101047033000 && near 0 (first r "ve") (2 # 100000)
  && near (1 # 10000) (first r "rgrav") (999595186 # 100000) && (rows r =? 2)%nat = true.
Proof. vm_compute. reflexivity. Qed.
Example test_read_dgs_dat_Langseth :
  let r := read_dgs_laptop (one f_MGL_dgsdata_y2025d254) (dates date_mdy) paths (lit "Langseth") None in
  at_time (first r "date_time") 1757548800910000 && near 0 (first r "ve") (32308 # 100000)
  && near (1 # 10000) (first r "rgrav") (14831871291 # 10000000) && (rows r =? 5)%nat = true.
Proof. vm_compute. reflexivity. Qed.
Example test_read_dgs_dat_Sikuliaq :
  let r := read_dgs_laptop (one f_SKQ_dgs_proc_20241213T0000Z) (dates date_mdy) paths (lit "Sikuliaq") None in
  at_time (first r "date_time") 1734047995000000 && near 0 (first r "ve") (235 # 100000)
  && near (1 # 10000) (first r "rgrav") (92884046923 # 10000000) && (rows r =? 2)%nat = true.
Proof. vm_compute. reflexivity. Qed.
Example test_read_dgs_dat_nope :
  read_dgs_laptop (one f_DGStest_laptop_dat) (dates date_mdy) paths (lit "Katama") None = Ok None.
Proof. vm_compute. reflexivity. Qed.
Example test_read_dgs_raw_general :
  let r := read_dgs_raw (one f_SR2312_dgs_raw_txt) (dates date_mdy) (dates date_iso) paths (lit "Ride") true in
  at_time (firstf r "date_time") 1686873600857719 && near 0 (firstf r "Gravity") (-218747)
  && near (1 # 10000) (firstf r "vcc") (768771 # 10000) = true.
Proof. vm_compute. reflexivity. Qed.
Example test_read_dgs_raw_Thompson :
  let r := read_dgs_raw (one f_TN400_dgs_raw_Raw) (dates date_mdy) (dates date_iso) paths (lit "Thompson") true in
  at_time (firstf r "date_time") 1647101046634000 && near 0 (firstf r "Gravity") (-82)
  && near (1 # 10000) (firstf r "vcc") (3571 # 100000) = true.
Proof. vm_compute. reflexivity. Qed.
Example test_read_dgs_raw_Sikuliaq :
  let r := read_dgs_raw (one f_SKQ_dgs_raw_20241018T2212Z) (dates date_iso) (dates date_iso) paths (lit "Sikuliaq") true in
  at_time (firstf r "date_time") 1729289555659100 && near 0 (firstf r "rgrav") 19964
  && near (1 # 1000) (firstf r "vcc") (30569 # 100000) = true.
Proof. vm_compute. reflexivity. Qed.
Example test_read_mru :
  let template := lit "$PASHR,{GPSTime:g},{HeadingTrue:g},T,{Pitch:g},{Roll:g},{Heave:g},{AccuracyPitch:g},{AccuracyRoll:g},{AccuracyHeave:g},{FlagAccuracyHeading:d},{FlagIMU:d}*{Checksum:x}" in
  let specs := mk_specs nat [(lit "PASHR", template)] [(lit "Pitch", 1%nat); (lit "Roll", 2%nat)] in
  match read_other_stuff specs f_SR2312_mru_txt (lit "PASHR") with
  | Ok (f, info) => near 0 (firstf (Ok f) "Pitch:g") (-41 # 100) && near 0 (firstf (Ok f) "Roll:g") (203 # 100)
                    && near 0 (firstf (Ok f) "Heave:g") (-60 # 100) && (nrows f =? 2)%nat && (List.length info =? 2)%nat
  | Raise _ => false
  end = true.
Proof. vm_compute. reflexivity. Qed.

(** ** Navigation: times and first longitude of each file.  ([read_nav] itself works on real numbers; what it
    makes of these two lists is the subject of P_ReadNav.) *)
Definition first_lon (text : str) (talker : string) : option R :=
  match navcoords (readlines text) (lit talker) with Ok (lon :: _, _) => lon | _ => None end.
Ltac near_lon := split; [ vm_compute; reflexivity | unfold powerRZ, Rabs; destruct (Rcase_abs _); simpl pow in *; lra ].
Example test_read_nav_Thompson :
  navdate_Thompson (readlines f_TN400_nav_Raw) (lit "INGGA") = Ok [Some 1647129603000000; Some 1647129604000000].
Proof. vm_compute. reflexivity. Qed.
Example test_read_nav_Thompson_lon :
  let lon := (- (118 + 3914935 * powerRZ 10 (-5) / 60))%R in
  first_lon f_TN400_nav_Raw "INGGA" = Some lon /\ (Rabs (lon + 118.6524) < 0.001)%R.
Proof. near_lon. Qed.
Example test_read_nav_Atlantis :
  navdate_Atlantis (readlines f_AT01_nav_gps) (lit "GPGGA") = Ok [Some 1656677853000000; Some 1656677854000000].
Proof. vm_compute. reflexivity. Qed.
Example test_read_nav_Atlantis_lon :
  let lon := (- (70 + 40311159 * powerRZ 10 (-6) / 60))%R in
  first_lon f_AT01_nav_gps "GPGGA" = Some lon /\ (Rabs (lon + 70.67185265) < 0.001)%R.
Proof. near_lon. Qed.
Example test_read_nav_Langseth :
  navdate_Langseth (readlines f_MGL2003_nav_y2020d244) (lit "INGGA") = Ok [Some 1598832000621200; Some 1598832001621800].
Proof. vm_compute. reflexivity. Qed.
Example test_read_nav_Langseth_lon :
  let lon := (- (132 + 37257959 * powerRZ 10 (-6) / 60))%R in
  first_lon f_MGL2003_nav_y2020d244 "INGGA" = Some lon /\ (Rabs (lon + 132.620965893) < 0.001)%R.
Proof. near_lon. Qed.
(** (the second fix is at 0.2 s: the code reads .2 as 20000 microseconds, see C56) *)
Example test_read_nav_Revelle :
  navdate_Revelle (readlines f_RR2212_nav_txt) (lit "GPGGA") = Ok [Some 1667606400000000; Some 1667606400020000].
Proof. vm_compute. reflexivity. Qed.
Example test_read_nav_Revelle_lon :
  let lon := (- (119 + 23337492 * powerRZ 10 (-6) / 60))%R in
  first_lon f_RR2212_nav_txt "GPGGA" = Some lon /\ (Rabs (lon + 119.3889582) < 0.001)%R.
Proof. near_lon. Qed.
Example test_read_nav_Ride :
  navdate_Ride (readlines f_SR2302_nav_raw) (lit "INGGA") = Ok (Stamps [Some 1674228947583000; Some 1674228948474000]).
Proof. vm_compute. reflexivity. Qed.
Example test_read_nav_Ride_lon :
  let lon := (- (117 + 14203305 * powerRZ 10 (-6) / 60))%R in
  first_lon f_SR2302_nav_raw "INGGA" = Some lon /\ (Rabs (lon + 117.23672175) < 0.001)%R.
Proof. near_lon. Qed.
Example test_read_nav_NBP :
  navdate_NBP (readlines f_NBP_2301_nav_d013) (lit "GPGGA") = Ok [Some 1673568001810000; Some 1673568002810000].
Proof. vm_compute. reflexivity. Qed.
Example test_read_nav_NBP_lon :
  let lon := (- (179 + 45635106 * powerRZ 10 (-6) / 60))%R in
  first_lon f_NBP_2301_nav_d013 "GPGGA" = Some lon /\ (Rabs (lon + 179.7605851) < 0.001)%R.
Proof. near_lon. Qed.
Example test_read_nav_nope :
  read_nav (one f_TN400_nav_Raw) (lit "Titanic") paths 1%R None None 0 = Ok Refused.
Proof. reflexivity. Qed.

(** ** test_utils.py, the status word *)
Example test_status_decode :
  match M_Status.decode_int 12345 with
  | Ok d => map (fun k => option_map snd (find (fun kv => String.eqb (fst kv) k) d)) ["clamp status"; "GPSsync"; "GPStime"; "feedback"]%string
            = [Some "0"; Some "0"; Some "1"; Some "1"]%char
  | Raise _ => False
  end.
Proof. vm_compute. reflexivity. Qed.
