(** Specification for properties C66-C68: BGM3 serial files. *)
From Coq Require Import ZArith QArith Qabs Ascii String Bool Sorted List.
From Verif Require Import M_Py M_Str M_Table S_Str S_Cal S_Nmea S_ReadNav S_Table.
Import ListNotations.
Open Scope Z_scope.

(** Scale factors of the meters (mGal per count). *)
Inductive meter_scale : str -> Q -> Prop :=
| ms_Atlantis : meter_scale (lit "Atlantis") (4994070552 # 1000000000)
| ms_Thompson : meter_scale (lit "Thompson") (5003353363 # 1000000000)
| ms_Revelle : meter_scale (lit "Revelle") (499980755 # 100000000)
| ms_Langseth : meter_scale (lit "Langseth") 5.
(** the scale factor used *)
Definition scale_for (ship : str) (arg : option Q) (sc : Q) : Prop :=
  match arg with Some s => sc = s | None => exists s, meter_scale ship s /\ (sc == s)%Q end.

(** the part of a text after its last [c], or all of it *)
Definition after_last (c : ascii) (s r : str) : Prop := ~ In c r /\ (s = r \/ exists p, s = p ++ c :: r).
Definition before_first (c : ascii) (s r : str) : Prop := ~ In c r /\ (s = r \/ exists p, s = r ++ c :: p).
(** "xx:012345" *)
Definition count_text (s : str) (z : Z) : Prop := exists r, after_last ":" s r /\ int_value r z.
Definition count_word (s : str) (z : Z) : Prop := exists w, before_first " " s w /\ count_text w z.
(** counts as cells *)
Definition count_column (ns : list Z) : list cell := map (fun n => Num (inject_Z n)) ns.

Definition counts_of (reading : str -> Z -> Prop) (k : nat) (rows : list (list str)) (ns : list Z) : Prop :=
  exists texts, Forall2 (field_at k) rows texts /\ Forall2 reading texts ns.

(** words separated by white space *)
Inductive words_of : str -> list str -> Prop :=
| wo_nil : forall ws, Forall space ws -> words_of ws []
| wo_last : forall ws w, Forall space ws -> w <> [] -> Forall (fun c => ~ space c) w -> words_of (ws ++ w) [w]
| wo_cons : forall ws w c s l, Forall space ws -> w <> [] -> Forall (fun c => ~ space c) w -> space c ->
    words_of (c :: s) l -> words_of (ws ++ w ++ c :: s) (w :: l).
(** "yyyy:ddd:hh:mm:ss.ffffff": microseconds since 1970 *)
Inductive doy_stamp : str -> Z -> Prop :=
| doy_intro : forall y w doy h mi s k f t i,
    1 <= y < 9999 -> (1 <= w <= 3)%nat -> 1 <= doy < 10 ^ Z.of_nat w -> doy <= 366 -> 0 <= h < 24 -> 0 <= mi < 60 -> 0 <= s < 60 ->
    (1 <= k <= 6)%nat -> 0 <= f < 10 ^ Z.of_nat k ->
    day_of_year y doy t -> instant t h mi s (f * 10 ^ Z.of_nat (6 - k)) i ->
    doy_stamp (pad 4 y ++ lit ":" ++ pad w doy ++ lit ":" ++ pad 2 h ++ lit ":" ++ pad 2 mi ++ lit ":" ++ pad 2 s ++ lit "." ++ pad k f) i.

(** What the serial files of the ships hold.  [td] converts texts to dates. *)
Inductive serial_file (td : list cell -> res (list cell)) : str -> str -> frame -> Prop :=
| sf_Atlantis : forall text rows ns stamps ts,
    csv_file " " 0 text rows -> wide_enough [1; 2; 4]%nat rows -> counts_of count_text 4 rows ns ->
    stamps_of 1 2 rows stamps -> td stamps = Ok ts ->
    serial_file td (lit "Atlantis") text [(lit "counts", count_column ns); (lit "date_time", ts)]
| sf_Thompson : forall text rows ns stamps ts,
    csv_file "," 0 text rows -> Forall (fun r => (List.length r <= 3)%nat) rows -> counts_of count_word 2 rows ns ->
    stamps_of 0 1 rows stamps -> td stamps = Ok ts ->
    serial_file td (lit "Thompson") text [(lit "counts", count_column ns); (lit "date_time", ts)]
| sf_Revelle : forall text rows ns dates ds ts,
    csv_file " " 0 text rows -> wide_enough [0; 1]%nat rows -> counts_of count_text 1 rows ns ->
    Forall2 (field_at 0) rows dates -> text_column dates ds ->
    td ds = Ok ts \/ (exists e, td ds = Raise e) /\ ts = ds ->
    serial_file td (lit "Revelle") text [(lit "date_time", ts); (lit "counts", count_column ns)]
| sf_Langseth : forall text lines wss rows us ns,
    file_lines text lines -> Forall2 words_of lines wss -> selected (fun ws => ws <> []) wss rows ->
    Forall2 (fun r u => exists s, nth_error r 1 = Some s /\ doy_stamp s u) rows us ->
    Forall2 (fun r n => exists s, nth_error r 2 = Some s /\ count_text s n) rows ns ->
    serial_file td (lit "Langseth") text [(lit "date_time", map (fun u => Time (u # 1000000)) us); (lit "counts", count_column ns)].

(** numbers or missing values *)
Definition numeric_column (counts : list cell) : Prop := Forall (fun c => c = NaN \/ exists q, c = Num q) counts.
(** A path leads to this table, by the user's reader or in the format of the ship. *)
Definition serial_table (fsys : str -> option str) (td : list cell -> res (list cell)) (ship : str)
  (fn : option (str -> res frame)) (p : str) (f : frame) : Prop :=
  match fn with
  | Some g => g p = Ok f /\ (exists n, table f n) /\ exists counts, has_column f (lit "counts") counts /\ numeric_column counts
  | None => exists text, fsys p = Some text /\ serial_file td ship text f
  end.

(** counts times the scale factor *)
Inductive times_scale (sc : Q) : cell -> cell -> Prop :=
| ts_num : forall q q', (q' == sc * q)%Q -> times_scale sc (Num q) (Num q')
| ts_nan : times_scale sc NaN NaN.
Definition calibrated (sc : Q) (f g : frame) : Prop :=
  exists counts grav, has_column f (lit "counts") counts /\ Forall2 (times_scale sc) counts grav /\ with_column (lit "rgrav") grav f g.

(** a conversion of texts to dates yields one date for each text *)
Definition keeps_length (td : list cell -> res (list cell)) : Prop := forall l l', td l = Ok l' -> List.length l' = List.length l.

(** ** Spikes *)
(** the counts change by more than [thresh] from row [i] to the next *)
Definition big_step (thresh : Q) (counts : list cell) (i : nat) : Prop :=
  exists a b, nth_error counts i = Some (Num a) /\ nth_error counts (S i) = Some (Num b) /\ (thresh < Qabs (b - a))%Q.
Definition big_steps (thresh : Q) (counts : list cell) (js : list nat) : Prop :=
  StronglySorted lt js /\ forall i, In i js <-> big_step thresh counts i.
(** steps in pairs of neighbours [p], [p + 1] *)
Definition in_pairs (js ps : list nat) : Prop := js = concat (map (fun p => [p; S p]) ps).
(** the rows in [bad] taken out of a column; [n]: number of the first row *)
Inductive rows_removed {A : Type} (bad : list nat) : nat -> list A -> list A -> Prop :=
| rr_nil : forall n, rows_removed bad n [] []
| rr_keep : forall n a l l', ~ In n bad -> rows_removed bad (S n) l l' -> rows_removed bad n (a :: l) (a :: l')
| rr_drop : forall n a l l', In n bad -> rows_removed bad (S n) l l' -> rows_removed bad n (a :: l) l'.
(** the table without these rows, with the old row numbers in a new first column *)
Definition despiked_as (name : str) (bad : list nat) (f g : frame) : Prop :=
  exists n idx cols, table f n /\ g = (name, map (fun i => Num (inject_Z (Z.of_nat i))) idx) :: cols /\
    rows_removed bad 0 (seq 0 n) idx /\
    Forall2 (fun c c' : str * list cell => fst c' = fst c /\ rows_removed bad 0 (snd c) (snd c')) f cols.
Definition despiked : list nat -> frame -> frame -> Prop := despiked_as (lit "index").
(** one-sample spikes at the rows [ss], and no other big step *)
Definition only_spikes (thresh : Q) (counts : list cell) (ss : list nat) : Prop :=
  StronglySorted (fun a b => (S a < b)%nat) ss /\ Forall (fun s => (0 < s)%nat) ss /\
  forall i, big_step thresh counts i <-> exists s, In s ss /\ (S i = s \/ i = s).

(** ** Files that cannot be read *)
(** no count in field [k] of some line *)
Definition bad_count (reading : str -> Z -> Prop) (k : nat) (rows : list (list str)) : Prop :=
  exists r s, In r rows /\ field_at k r s /\ forall n, ~ reading s n.
Inductive serial_error (td : list cell -> res (list cell)) : str -> str -> exn -> Prop :=
| se_narrow_Atlantis : forall text rows, csv_file " " 0 text rows -> ~ wide_enough [1; 2; 4]%nat rows ->
    serial_error td (lit "Atlantis") text ValueError
| se_count_Atlantis : forall text rows, csv_file " " 0 text rows -> bad_count count_text 4 rows ->
    serial_error td (lit "Atlantis") text ValueError
| se_stamps_Atlantis : forall text rows ns, csv_file " " 0 text rows -> wide_enough [1; 2; 4]%nat rows -> counts_of count_text 4 rows ns ->
    numeric_stamps 1 2 rows -> serial_error td (lit "Atlantis") text TypeError
| se_dates_Atlantis : forall text rows ns stamps e, csv_file " " 0 text rows -> wide_enough [1; 2; 4]%nat rows -> counts_of count_text 4 rows ns ->
    stamps_of 1 2 rows stamps -> td stamps = Raise e -> serial_error td (lit "Atlantis") text e
| se_long_Thompson : forall text rows r, csv_file "," 0 text rows -> In r rows -> (3 < List.length r)%nat ->
    serial_error td (lit "Thompson") text ValueError
| se_count_Thompson : forall text rows, csv_file "," 0 text rows -> bad_count count_word 2 rows ->
    serial_error td (lit "Thompson") text ValueError
| se_stamps_Thompson : forall text rows ns, csv_file "," 0 text rows -> Forall (fun r => (List.length r <= 3)%nat) rows -> counts_of count_word 2 rows ns ->
    numeric_stamps 0 1 rows -> serial_error td (lit "Thompson") text TypeError
| se_dates_Thompson : forall text rows ns stamps e, csv_file "," 0 text rows -> Forall (fun r => (List.length r <= 3)%nat) rows -> counts_of count_word 2 rows ns ->
    stamps_of 0 1 rows stamps -> td stamps = Raise e -> serial_error td (lit "Thompson") text e
| se_narrow_Revelle : forall text rows, csv_file " " 0 text rows -> ~ wide_enough [0; 1]%nat rows ->
    serial_error td (lit "Revelle") text ValueError
| se_count_Revelle : forall text rows, csv_file " " 0 text rows -> bad_count count_text 1 rows ->
    serial_error td (lit "Revelle") text ValueError
| se_count_Langseth : forall text lines wss rows us r,
    file_lines text lines -> Forall2 words_of lines wss -> selected (fun ws => ws <> []) wss rows ->
    Forall2 (fun r u => exists s, nth_error r 1 = Some s /\ doy_stamp s u) rows us ->
    In r rows -> (forall s n, field_at 2 r s -> ~ count_text s n) -> serial_error td (lit "Langseth") text ValueError.
(** the ships with a reader *)
Definition serial_ships : list str := map lit ["Atlantis"; "Thompson"; "Revelle"; "Langseth"]%string.
Inductive path_error (fsys : str -> option str) (td : list cell -> res (list cell)) (ship : str) : option (str -> res frame) -> str -> exn -> Prop :=
| pe_missing : forall p, In ship serial_ships -> fsys p = None -> path_error fsys td ship None p FileNotFoundError
| pe_content : forall p text e, fsys p = Some text -> serial_error td ship text e -> path_error fsys td ship None p e
| pe_user : forall g p e, g p = Raise e -> path_error fsys td ship (Some g) p e
| pe_user_counts : forall g p f, g p = Ok f -> ~ In (lit "counts") (map fst f) -> path_error fsys td ship (Some g) p KeyError
| pe_user_text : forall g p f n counts s, g p = Ok f -> table f n -> has_column f (lit "counts") counts -> In (Txt s) counts ->
    path_error fsys td ship (Some g) p TypeError.

(** ** RGS files *)
(** rows and times of a file *)
Definition rgs_rows (fsys : str -> option str) (td : list cell -> res (list cell)) (p : str) (rows : list (list str)) (ts : list cell) : Prop :=
  exists text stamps, fsys p = Some text /\ csv_file " " 0 text rows /\ wide_enough [1; 2; 3; 11; 12]%nat rows /\
    stamps_of 1 2 rows stamps /\ td stamps = Ok ts.
Definition rgs_frame (rows : list (list str)) (ts : list cell) (f : frame) : Prop :=
  exists base, csv_table [(lit "grav", 3%nat); (lit "lat", 11%nat); (lit "lon", 12%nat)] rows base /\ f = base ++ [(lit "date_time", ts)].
Definition rgs_ships : list str := map lit ["Atlantis"; "NBP"]%string.
Inductive rgs_error (fsys : str -> option str) (td : list cell -> res (list cell)) (p : str) : exn -> Prop :=
| re_missing : fsys p = None -> rgs_error fsys td p FileNotFoundError
| re_narrow : forall text rows, fsys p = Some text -> csv_file " " 0 text rows -> ~ wide_enough [1; 2; 3; 11; 12]%nat rows -> rgs_error fsys td p ValueError
| re_stamps : forall text rows, fsys p = Some text -> csv_file " " 0 text rows -> wide_enough [1; 2; 3; 11; 12]%nat rows -> numeric_stamps 1 2 rows -> rgs_error fsys td p TypeError
| re_dates : forall text rows stamps e, fsys p = Some text -> csv_file " " 0 text rows -> wide_enough [1; 2; 3; 11; 12]%nat rows ->
    stamps_of 1 2 rows stamps -> td stamps = Raise e -> rgs_error fsys td p e.
