(** Specification for property C96 (motion of the ship from daily files). *)
From Coq Require Import ZArith QArith Ascii String Bool Sorted Permutation List.
From Verif Require Import M_Py M_Str M_Table M_Other S_Str S_Cal S_Nmea S_ReadNav S_Table S_Bgm S_Dgs S_Other S_Serial.
Import ListNotations.
Open Scope Z_scope.

Definition feed : str := lit "PASHR".
(** The table of one file. *)
Definition file_table {I : Type} (specs : feed_specs I) (fsys : str -> option str) (p : str) (f : frame) : Prop :=
  exists text info, fsys p = Some text /\ feed_result specs text feed f info.
(** The file cannot be read, for reason [e]. *)
Inductive file_error {I : Type} (specs : feed_specs I) (fsys : str -> option str) (p : str) : exn -> Prop :=
| fe_no_feed : ~ In feed (map fst (formats specs)) -> file_error specs fsys p AssertionError
| fe_no_file : In feed (map fst (formats specs)) -> fsys p = None -> file_error specs fsys p FileNotFoundError
| fe_feed : forall text e, fsys p = Some text -> feed_error specs text feed e -> file_error specs fsys p e.
(** What a conversion of texts to times may return: as many cells, each a time or missing. *)
Definition converter (td : list cell -> res (list cell)) : Prop :=
  forall l ts, td l = Ok ts -> List.length ts = List.length l /\ Forall (fun c => c = NaN \/ exists t, c = Time t) ts.

(** The files in order of their names, one table under the other; what stood before the tag becomes the time. *)
Inductive mru_result {I : Type} (td : list cell -> res (list cell)) (specs : feed_specs I) (fsys : str -> option str) (paths : list str) : frame -> Prop :=
| mr_intro : forall sorted frames whole before ts timed rest T,
    Permutation paths sorted -> Sorted lex_le sorted -> Forall2 (file_table specs fsys) sorted frames ->
    stacked frames whole -> has_column whole (lit "mystery") before -> td before = Ok (map Time ts) ->
    with_column (lit "date_time") (map Time ts) whole timed ->
    selected (fun col => fst col <> lit "mystery") timed rest ->
    with_column (lit "tsec") (map Num ts) rest T -> mru_result td specs fsys paths T.
Inductive mru_error {I : Type} (td : list cell -> res (list cell)) (specs : feed_specs I) (fsys : str -> option str) (paths : list str) : exn -> Prop :=
| me_none : paths = [] -> mru_error td specs fsys paths ValueError
| me_file : forall a p b frames e, Permutation paths (a ++ p :: b) -> Sorted lex_le (a ++ p :: b) -> Forall2 (file_table specs fsys) a frames ->
    file_error specs fsys p e -> mru_error td specs fsys paths e
| me_time : forall sorted frames whole before e,
    Permutation paths sorted -> Sorted lex_le sorted -> Forall2 (file_table specs fsys) sorted frames ->
    stacked frames whole -> has_column whole (lit "mystery") before -> td before = Raise e -> mru_error td specs fsys paths e
| me_missing : forall sorted frames whole before cells,
    Permutation paths sorted -> Sorted lex_le sorted -> Forall2 (file_table specs fsys) sorted frames ->
    stacked frames whole -> has_column whole (lit "mystery") before -> td before = Ok cells -> In NaN cells -> mru_error td specs fsys paths ValueError.

(** A path with a date, year-month-day, after [pre]. *)
Definition dated (pre : str) (t : date) (p : str) : Prop :=
  exists Y M D y m d suf, t = (y, m, d) /\ List.length Y = 4%nat /\ List.length M = 2%nat /\ List.length D = 2%nat /\
    whole Y y /\ whole M m /\ whole D d /\ p = pre ++ Y ++ lit "-" ++ M ++ lit "-" ++ D ++ suf.
(** Texts, not numbers, that [td] reads as the times that they stand for. *)
Definition reads (stamp : str -> Q -> Prop) (td : list cell -> res (list cell)) : Prop :=
  (forall s t, stamp s t -> s <> [] /\ ~ a_number s) /\
  forall l ts, Forall2 stamp l ts -> td (map Txt l) = Ok (map Time ts).
(** The records in file [p] are of day [t], and in order. *)
Definition day_file (stamp : str -> Q -> Prop) (fsys : str -> option str) (t : date) (p : str) : Prop :=
  exists text kept rows ts n, fsys p = Some text /\ tagged feed text kept /\ Forall2 (feed_row feed) kept rows /\
    Forall2 stamp (map fst rows) ts /\ Sorted Qle ts /\
    day_number t n /\ Forall (fun s => inject_Z (n * 86400) <= s /\ s < inject_Z ((n + 1) * 86400))%Q ts.
