(** Specification for properties C69-C71: DGS laptop and raw files. *)
From Coq Require Import ZArith QArith Ascii String Bool Sorted List.
From Verif Require Import M_Py M_Str M_Table S_Str S_Cal S_Nmea S_ReadNav S_Table S_Bgm.
Import ListNotations.
Open Scope Z_scope.

(** ** Laptop files *)
(** the columns and the fields (counted from 0) that they hold *)
Definition laptop_fields : list (str * nat) :=
  map (fun c => (lit (fst c), snd c))
    [("rgrav", 1%nat); ("long_a", 2%nat); ("crss_a", 3%nat); ("status", 6%nat); ("ve", 10%nat); ("vcc", 11%nat); ("al", 12%nat); ("ax", 13%nat);
     ("lat", 14%nat); ("lon", 15%nat); ("year", 19%nat); ("month", 20%nat); ("day", 21%nat); ("hour", 22%nat); ("minute", 23%nat); ("second", 24%nat)]%string.
Definition parts : list str := map lit ["year"; "month"; "day"; "hour"; "minute"; "second"]%string.
(** the cells of row [i] in the columns [cs] *)
Definition row_cells (f : frame) (cs : list str) (i : nat) (l : list cell) : Prop := Forall2 (fun c x => has_cell f c i x) cs l.
(** a table of [n] rows with a column of dates added at the end *)
Definition dated (f g : frame) (n : nat) : Prop :=
  exists ts, g = f ++ [(lit "date_time", ts)] /\ List.length ts = n /\
    forall i, (i < n)%nat -> exists l t, row_cells f parts i l /\ nth_error ts i = Some t /\ parts_read l t.
(** some row has no date *)
Definition undated (f : frame) (n : nat) : Prop :=
  exists i l, (i < n)%nat /\ row_cells f parts i l /\ forall t, ~ parts_read l t.

(** *** Langseth *)
(** without white space in front *)
Definition left_trimmed (s t : str) : Prop := exists w, s = w ++ t /\ Forall space w /\ ~ exists c r, t = c :: r /\ space c.
(** without newlines at the end *)
Definition right_trimmed (s t : str) : Prop := exists k, s = t ++ repeat nl k /\ ~ exists r, t = r ++ [nl].
Definition word (s : str) : Prop := s <> [] /\ Forall (fun c => ~ space c) s.
Definition blanks (s : str) : Prop := s <> [] /\ Forall space s.
Definition prefixed (s : str) : Prop := exists r, s = lit "dgsdata" ++ r.
(** what follows the optional prefix *)
Inductive line_tail (l : str) : str -> Prop :=
| lt_plain : forall s t, left_trimmed l s -> ~ prefixed s -> right_trimmed s t -> line_tail l t
| lt_prefix : forall w1 b1 w2 b2 r t, left_trimmed l (w1 ++ b1 ++ w2 ++ b2 ++ r) -> prefixed (w1 ++ b1 ++ w2 ++ b2 ++ r) ->
    word w1 -> blanks b1 -> word w2 -> blanks b2 -> (exists c r', r = c :: r' /\ ~ space c) -> right_trimmed r t -> line_tail l t.
(** the prefix alone *)
Definition only_prefix (l : str) : Prop := exists s ws, left_trimmed l s /\ prefixed s /\ words_of s ws /\ (List.length ws <= 2)%nat.
(** rows of 26 fields; number of the line and of its fields for those skipped *)
Inductive laptop_lines : nat -> list str -> list (list str) -> list (nat * option nat) -> Prop :=
| ll_nil : forall n, laptop_lines n [] [] []
| ll_row : forall n l ls t r rows skipped, line_tail l t -> fields_of "," t r -> List.length r = 26%nat ->
    laptop_lines (S n) ls rows skipped -> laptop_lines n (l :: ls) (r :: rows) skipped
| ll_other : forall n l ls t r rows skipped, line_tail l t -> fields_of "," t r -> List.length r <> 26%nat ->
    laptop_lines (S n) ls rows skipped -> laptop_lines n (l :: ls) rows ((n, Some (List.length r)) :: skipped)
| ll_prefix : forall n l ls rows skipped, only_prefix l ->
    laptop_lines (S n) ls rows skipped -> laptop_lines n (l :: ls) rows ((n, None) :: skipped).
Definition langseth_table (rows : list (list str)) (f : frame) : Prop :=
  Forall2 (fun (c : str * nat) (col : str * list cell) => fst col = fst c /\
    Forall2 (fun r x => exists s, nth_error r (snd c) = Some s /\ coerced s x) rows (snd col)) laptop_fields f.

(** *** Files of the ships *)
Definition laptop_ships : list str := map lit ["Atlantis"; "Revelle"; "NBP"; "Ride"; "DGStest"]%string.
Definition all_laptop_ships : list str := laptop_ships ++ map lit ["Thompson"; "Sikuliaq"; "Langseth"]%string.
Definition thompson_fields : list (str * nat) :=
  map (fun c => (lit (fst c), snd c))
    [("rgrav", 3%nat); ("ve", 12%nat); ("vcc", 13%nat); ("al", 14%nat); ("ax", 15%nat); ("lat", 16%nat); ("lon", 17%nat)]%string.
Definition thompson_wide (rows : list (list str)) : Prop := wide_enough [0; 1; 3; 12; 13; 14; 15; 16; 17]%nat rows.
Inductive laptop_file (td : list cell -> res (list cell)) : str -> str -> frame -> Prop :=
| lf_general : forall ship text rows f g, In ship laptop_ships -> csv_file "," 0 text rows -> wide_enough (map snd laptop_fields) rows ->
    csv_table laptop_fields rows f -> dated f g (List.length rows) -> laptop_file td ship text g
| lf_Sikuliaq : forall text rows f g, csv_file "," 19 text rows -> wide_enough (map snd laptop_fields) rows ->
    csv_table laptop_fields rows f -> dated f g (List.length rows) -> laptop_file td (lit "Sikuliaq") text g
| lf_Thompson : forall text rows f stamps ts, csv_file "," 0 text rows -> thompson_wide rows ->
    csv_table thompson_fields rows f -> stamps_of 0 1 rows stamps -> td stamps = Ok ts ->
    laptop_file td (lit "Thompson") text (f ++ [(lit "date_time", ts)])
| lf_Langseth : forall text lines rows skipped f g, file_lines text lines -> laptop_lines 1 lines rows skipped ->
    langseth_table rows f -> dated f g (List.length rows) -> laptop_file td (lit "Langseth") text g.
Inductive laptop_error (td : list cell -> res (list cell)) : str -> str -> exn -> Prop :=
| le_general_narrow : forall ship text rows, In ship laptop_ships -> csv_file "," 0 text rows -> ~ wide_enough (map snd laptop_fields) rows ->
    laptop_error td ship text ValueError
| le_general_date : forall ship text rows f, In ship laptop_ships -> csv_file "," 0 text rows ->
    csv_table laptop_fields rows f -> undated f (List.length rows) -> laptop_error td ship text ValueError
| le_Sikuliaq_narrow : forall text rows, csv_file "," 19 text rows -> ~ wide_enough (map snd laptop_fields) rows ->
    laptop_error td (lit "Sikuliaq") text ValueError
| le_Sikuliaq_date : forall text rows f, csv_file "," 19 text rows ->
    csv_table laptop_fields rows f -> undated f (List.length rows) -> laptop_error td (lit "Sikuliaq") text ValueError
| le_Thompson_narrow : forall text rows, csv_file "," 0 text rows -> ~ thompson_wide rows -> laptop_error td (lit "Thompson") text ValueError
| le_Thompson_stamps : forall text rows, csv_file "," 0 text rows -> thompson_wide rows -> numeric_stamps 0 1 rows -> laptop_error td (lit "Thompson") text TypeError
| le_Thompson_date : forall text rows stamps e, csv_file "," 0 text rows -> thompson_wide rows -> stamps_of 0 1 rows stamps -> td stamps = Raise e ->
    laptop_error td (lit "Thompson") text e
| le_Langseth_date : forall text lines rows skipped f, file_lines text lines -> laptop_lines 1 lines rows skipped ->
    langseth_table rows f -> undated f (List.length rows) -> laptop_error td (lit "Langseth") text ValueError.

(** ** Raw files *)
Definition in_order (names : list string) : list (str * nat) := combine (map lit names) (seq 0 (List.length names)).
Definition at1m_names : list string :=
  ["string"; "Gravity"; "Long"; "Cross"; "Beam"; "Temp"; "Pressure"; "ElecTemp"; "vcc"; "ve"; "al"; "ax";
   "status"; "checksum"; "latitude"; "longitude"; "speed"; "course"]%string.
Definition raw_fields : list (str * nat) := in_order (at1m_names ++ ["timestamp"%string]).
Definition raw_Thompson_fields : list (str * nat) := in_order (["date"; "time"]%string ++ at1m_names).
Definition starts_with (p s : str) : Prop := exists r, s = p ++ r.
(** digits that stand for a number *)
Definition numeral_of (lo hi : nat) (s : str) (z : Z) : Prop := (lo <= List.length s <= hi)%nat /\ whole s z.
Definition clock (h mi s : Z) : Prop := h < 24 /\ mi < 60 /\ s < 60.
(** yyyymmddHHMMSS: microseconds since 1970 *)
Inductive stamp_14 : str -> Z -> Prop :=
| s14 : forall sy sm sd sh si ss y m d h mi s i,
    numeral_of 4 4 sy y -> numeral_of 2 2 sm m -> numeral_of 2 2 sd d -> numeral_of 2 2 sh h -> numeral_of 2 2 si mi -> numeral_of 2 2 ss s ->
    1 <= y -> valid_date (y, m, d) -> clock h mi s -> instant (y, m, d) h mi s 0 i ->
    stamp_14 (sy ++ sm ++ sd ++ sh ++ si ++ ss) i.
(** mm/dd/yyyy:HH:MM:SS.ffffff *)
Inductive stamp_mdy : str -> Z -> Prop :=
| smdy : forall sm sd sy sh si ss sf m d y h mi s f i,
    numeral_of 1 2 sm m -> numeral_of 1 2 sd d -> numeral_of 4 4 sy y -> numeral_of 1 2 sh h -> numeral_of 1 2 si mi -> numeral_of 1 2 ss s -> numeral_of 1 6 sf f ->
    1 <= y -> valid_date (y, m, d) -> clock h mi s -> instant (y, m, d) h mi s (f * 10 ^ Z.of_nat (6 - List.length sf)) i ->
    stamp_mdy (sm ++ lit "/" ++ sd ++ lit "/" ++ sy ++ lit ":" ++ sh ++ lit ":" ++ si ++ lit ":" ++ ss ++ lit "." ++ sf) i.
Definition time_cell (i : Z) : cell := Time (i # 1000000).
(** the time stamp of a line *)
Definition line_stamp (k : nat) (r : list str) (c : cell) : Prop :=
  exists s s' i, field_at k r s /\ trimmed s s' /\ stamp_14 s' i /\ c = time_cell i.
(** the time stamp of the first line begins with 1: the clock is not set *)
Definition unsynced (r : list str) : Prop := exists s s', field_at 18 r s /\ trimmed s s' /\ starts_with (lit "1") s'.

Inductive raw_general (iso : list cell -> res (list cell)) (text : str) : frame -> Prop :=
| rg_stamps : forall r0 rs f ts, csv_file "," 0 text (r0 :: rs) -> wide_enough (map snd raw_fields) (r0 :: rs) ->
    csv_table raw_fields (r0 :: rs) f -> ~ unsynced r0 -> Forall2 (line_stamp 18) (r0 :: rs) ts ->
    raw_general iso text (f ++ [(lit "date_time", ts)])
| rg_dollar : forall r0 rs f strings s0 cs, csv_file "," 0 text (r0 :: rs) -> wide_enough (map snd raw_fields) (r0 :: rs) ->
    csv_table raw_fields (r0 :: rs) f -> unsynced r0 ->
    Forall2 (field_at 0) (r0 :: rs) strings -> text_column strings (Txt s0 :: cs) -> starts_with (lit "$") s0 ->
    raw_general iso text f
| rg_iso : forall r0 rs f strings s0 cs words ts, csv_file "," 0 text (r0 :: rs) -> wide_enough (map snd raw_fields) (r0 :: rs) ->
    csv_table raw_fields (r0 :: rs) f -> unsynced r0 ->
    Forall2 (field_at 0) (r0 :: rs) strings -> text_column strings (Txt s0 :: cs) -> ~ starts_with (lit "$") s0 ->
    Forall2 (fun c w => exists s, c = Txt s /\ before_first " " s w) (Txt s0 :: cs) words -> iso (map Txt words) = Ok ts ->
    raw_general iso text (f ++ [(lit "date_time", ts)])
| rg_no_iso : forall r0 rs f strings s0 cs, csv_file "," 0 text (r0 :: rs) -> wide_enough (map snd raw_fields) (r0 :: rs) ->
    csv_table raw_fields (r0 :: rs) f -> unsynced r0 ->
    Forall2 (field_at 0) (r0 :: rs) strings -> text_column strings (Txt s0 :: cs) -> ~ starts_with (lit "$") s0 ->
    (In NaN cs \/ exists words e, Forall2 (fun c w => exists s, c = Txt s /\ before_first " " s w) (Txt s0 :: cs) words /\ iso (map Txt words) = Raise e) ->
    raw_general iso text f.
Inductive raw_general_error (text : str) : exn -> Prop :=
| rge_narrow : forall rows, csv_file "," 0 text rows -> ~ wide_enough (map snd raw_fields) rows -> raw_general_error text ValueError
| rge_empty : csv_file "," 0 text [] -> raw_general_error text IndexError
| rge_stamp : forall r0 rs r, csv_file "," 0 text (r0 :: rs) -> wide_enough (map snd raw_fields) (r0 :: rs) -> ~ unsynced r0 ->
    In r (r0 :: rs) -> (forall c, ~ line_stamp 18 r c) -> raw_general_error text ValueError
| rge_string : forall r0 rs strings s0, csv_file "," 0 text (r0 :: rs) -> wide_enough (map snd raw_fields) (r0 :: rs) -> unsynced r0 ->
    Forall2 (field_at 0) (r0 :: rs) strings -> hd_error strings = Some s0 -> missing s0 \/ number_column strings ->
    raw_general_error text AttributeError.

(** Thompson: date and time of a line *)
Inductive mdy_line : cell * cell -> cell -> Prop :=
| ml : forall d t i, stamp_mdy (d ++ lit ":" ++ t) i -> mdy_line (Txt d, Txt t) (time_cell i).
Inductive mdy_error : cell * cell -> exn -> Prop :=
| me_value : forall d t, (forall i, ~ stamp_mdy (d ++ lit ":" ++ t) i) -> mdy_error (Txt d, Txt t) ValueError
| me_type : forall a b, (forall d t, (a, b) <> (Txt d, Txt t)) -> mdy_error (a, b) TypeError.
(** the first error of a list *)
Definition first_error {A : Type} (good : A -> Prop) (bad : A -> exn -> Prop) (l : list A) (e : exn) : Prop :=
  exists l1 a l2, l = l1 ++ a :: l2 /\ Forall good l1 /\ bad a e.
Definition both_columns (rows : list (list str)) (l : list (cell * cell)) : Prop :=
  exists ds ts cd ct, Forall2 (field_at 0) rows ds /\ Forall2 (field_at 1) rows ts /\ column_read ds cd /\ column_read ts ct /\ l = combine cd ct.
Inductive raw_Thompson (text : str) : frame -> Prop :=
| rt : forall rows f pairs ts, csv_file "," 0 text rows -> wide_enough (map snd raw_Thompson_fields) rows -> csv_table raw_Thompson_fields rows f ->
    both_columns rows pairs -> Forall2 mdy_line pairs ts -> raw_Thompson text (f ++ [(lit "date_time", ts)]).
Inductive raw_Thompson_error (text : str) : exn -> Prop :=
| rte_narrow : forall rows, csv_file "," 0 text rows -> ~ wide_enough (map snd raw_Thompson_fields) rows -> raw_Thompson_error text ValueError
| rte_stamp : forall rows pairs e, csv_file "," 0 text rows -> wide_enough (map snd raw_Thompson_fields) rows -> both_columns rows pairs ->
    first_error (fun p => exists c, mdy_line p c) mdy_error pairs e -> raw_Thompson_error text e.

(** Sikuliaq: [$AT1M_...,g1,g2,g3,...,...,...,...,g4,g5,g6,g7,...,...,g8,g9...] *)
Definition number_char (c : ascii) : Prop := digit c \/ c = "-"%char \/ c = "."%char.
Definition group (s : str) : Prop := s <> [] /\ Forall number_char s.
Definition no_comma (s : str) : Prop := ~ In ","%char s.
Inductive at1m : str -> list str -> Prop :=
| at1m_intro : forall x0 g1 g2 g3 x4 x5 x6 x7 g4 g5 g6 g7 x12 x13 g8 g9 rest,
    Forall no_comma [x0; x4; x5; x6; x7; x12; x13] -> Forall group [g1; g2; g3; g4; g5; g6; g7; g8; g9] ->
    (forall c r, rest = c :: r -> ~ number_char c) ->
    at1m (lit "$AT1M_" ++ join (lit ",") [x0; g1; g2; g3; x4; x5; x6; x7; g4; g5; g6; g7; x12; x13; g8; g9] ++ rest) [g1; g2; g3; g4; g5; g6; g7; g8; g9].
(** the text before a comment *)
Definition before_comment (l s : str) : Prop := exists b, body_of l b /\ before_first "#" b s.
Definition sikuliaq_rows (text : str) (rows : list (list str)) : Prop :=
  exists lines bodies kept, file_lines text lines /\ Forall2 before_comment lines bodies /\
    selected (fun b => ~ blank_line tab b) bodies kept /\ Forall2 (fields_of tab) kept rows.
Definition sikuliaq_cell (k : nat) (r : list str) (c : cell) : Prop :=
  exists raw, field_at 2 r raw /\
    ((exists gs g, at1m raw gs /\ nth_error gs k = Some g /\ coerced g c) \/ ((forall gs, ~ at1m raw gs) /\ c = NaN)).
Inductive raw_Sikuliaq (td : list cell -> res (list cell)) (text : str) : frame -> Prop :=
| rs_intro : forall rows f stamps cs ts, sikuliaq_rows text rows -> Forall (fun r => (List.length r <= 3)%nat) rows ->
    Forall2 (fun (c : str * nat) (col : str * list cell) => fst col = fst c /\ Forall2 (sikuliaq_cell (snd c)) rows (snd col))
      (in_order ["rgrav"; "long_a"; "crss_a"; "vcc"; "ve"; "al"; "ax"; "lat"; "lon"]%string) f ->
    Forall2 (field_at 1) rows stamps -> column_read stamps cs -> td cs = Ok ts -> raw_Sikuliaq td text (f ++ [(lit "date_time", ts)]).
Inductive raw_Sikuliaq_error (td : list cell -> res (list cell)) (text : str) : exn -> Prop :=
| rse_long : forall rows r, sikuliaq_rows text rows -> In r rows -> (3 < List.length r)%nat -> raw_Sikuliaq_error td text ValueError
| rse_date : forall rows stamps cs e, sikuliaq_rows text rows -> Forall (fun r => (List.length r <= 3)%nat) rows ->
    Forall2 (field_at 1) rows stamps -> column_read stamps cs -> td cs = Raise e -> raw_Sikuliaq_error td text e.

(** the format of a ship *)
Definition raw_file (td iso : list cell -> res (list cell)) (ship text : str) (f : frame) : Prop :=
  (ship = lit "Thompson" /\ raw_Thompson text f) \/ (ship = lit "Sikuliaq" /\ raw_Sikuliaq td text f) \/
  (ship <> lit "Thompson" /\ ship <> lit "Sikuliaq" /\ raw_general iso text f).
Definition raw_error (td : list cell -> res (list cell)) (ship text : str) (e : exn) : Prop :=
  (ship = lit "Thompson" /\ raw_Thompson_error text e) \/ (ship = lit "Sikuliaq" /\ raw_Sikuliaq_error td text e) \/
  (ship <> lit "Thompson" /\ ship <> lit "Sikuliaq" /\ raw_general_error text e).
(** the four monitors times 1e-5 *)
Definition monitors : list str := map lit ["ve"; "vcc"; "al"; "ax"]%string.
Definition rescaled (f g : frame) : Prop :=
  Forall2 (fun c c' : str * list cell => fst c' = fst c /\
    (In (fst c) monitors -> Forall2 (times_scale (1 # 100000)) (snd c) (snd c')) /\ (~ In (fst c) monitors -> snd c' = snd c)) f g.
Definition monitor_text (f : frame) : Prop := exists m v, In m monitors /\ has_column f m v /\ ~ numeric_column v.
(** what a path leads to *)
Definition raw_table (fsys : str -> option str) (td iso : list cell -> res (list cell)) (ship : str) (scale_ccp : bool) (p : str) (g : frame) : Prop :=
  exists text f, fsys p = Some text /\ raw_file td iso ship text f /\ (if scale_ccp then rescaled f g else g = f).
Inductive raw_path_error (fsys : str -> option str) (td iso : list cell -> res (list cell)) (ship : str) (scale_ccp : bool) (p : str) : exn -> Prop :=
| rpe_missing : fsys p = None -> raw_path_error fsys td iso ship scale_ccp p FileNotFoundError
| rpe_content : forall text e, fsys p = Some text -> raw_error td ship text e -> raw_path_error fsys td iso ship scale_ccp p e
| rpe_text : forall text f, fsys p = Some text -> raw_file td iso ship text f -> scale_ccp = true -> monitor_text f ->
    raw_path_error fsys td iso ship scale_ccp p TypeError.
Definition laptop_table (fsys : str -> option str) (td : list cell -> res (list cell)) (ship : str) (fn : option (str -> res frame)) (p : str) (g : frame) : Prop :=
  match fn with Some u => u p = Ok g | None => exists text, fsys p = Some text /\ laptop_file td ship text g end.
Inductive laptop_path_error (fsys : str -> option str) (td : list cell -> res (list cell)) (ship : str) : option (str -> res frame) -> str -> exn -> Prop :=
| lpe_missing : forall p, In ship all_laptop_ships -> fsys p = None -> laptop_path_error fsys td ship None p FileNotFoundError
| lpe_content : forall p text e, fsys p = Some text -> laptop_error td ship text e -> laptop_path_error fsys td ship None p e
| lpe_user : forall u p e, u p = Raise e -> laptop_path_error fsys td ship (Some u) p e.
