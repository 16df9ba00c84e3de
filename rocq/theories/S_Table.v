(** Specification vocabulary for the tables of the gravimeter readers (properties C66-C73). *)
From Coq Require Import ZArith QArith Ascii String Bool Sorted List.
From Verif Require Import M_Str M_Table S_Str S_Cal S_Nmea S_ReadNav.
Import ListNotations.
Open Scope Z_scope.

(** ** Numbers in texts *)
(** position of a digit among the digits *)
Inductive digit_value : ascii -> Z -> Prop :=
| dv : forall k c, nth_error (list_ascii_of_string "0123456789") k = Some c -> digit_value c (Z.of_nat k).
(** value of a digit string *)
Inductive whole : str -> Z -> Prop :=
| wh_nil : whole [] 0
| wh_cons : forall c s a n, digit_value c a -> whole s n -> whole (c :: s) (a * 10 ^ Z.of_nat (List.length s) + n).
Inductive sign_value : str -> Z -> Prop :=
| sv_none : sign_value [] 1
| sv_plus : sign_value (lit "+") 1
| sv_minus : sign_value (lit "-") (-1).
(** value of a Python integer literal *)
Definition int_value (s : str) (z : Z) : Prop :=
  exists t sg d sv n, trimmed s t /\ well_underscored t /\ without_underscores t = sg ++ d /\ sign_value sg sv /\
    d <> [] /\ whole d n /\ z = sv * n.
(** an optional exponent *)
Inductive exponent_value : str -> Z -> Prop :=
| ev_none : exponent_value [] 0
| ev_some : forall e sg d sv n, e = "e"%char \/ e = "E"%char -> sign_value sg sv -> d <> [] -> whole d n ->
    exponent_value (e :: sg ++ d) (sv * n).
(** digits with or without decimals; [f] are the decimals *)
Inductive mantissa (i f : str) : str -> Prop :=
| ma_int : f = [] -> mantissa i f i
| ma_point : mantissa i f (i ++ "."%char :: f).
(** value of a decimal number with optional sign, decimals and exponent; blanks around it do not matter *)
Definition number_value (s : str) (q : Q) : Prop :=
  exists t sg i f m x sv n e, trimmed s t /\ t = sg ++ m ++ x /\ sign_value sg sv /\ i ++ f <> [] /\ mantissa i f m /\
    whole (i ++ f) n /\ exponent_value x e /\
    (q == inject_Z (sv * n) * Qpower (inject_Z 10) (e - Z.of_nat (List.length f)))%Q.
Definition a_number (s : str) : Prop := exists q, number_value s q.

(** ** Cells *)
(** texts that stand for a missing value in a csv file *)
Definition missing (s : str) : Prop :=
  In s (map lit [""; "#N/A"; "#N/A N/A"; "#NA"; "-1.#IND"; "-1.#QNAN"; "-NaN"; "-nan"; "1.#IND"; "1.#QNAN";
                 "<NA>"; "N/A"; "NA"; "NULL"; "NaN"; "None"; "n/a"; "nan"; "null"])%string.
(** a field of a numeric column *)
Inductive numeric_cell (s : str) : cell -> Prop :=
| nc_missing : missing s -> numeric_cell s NaN
| nc_number : forall q, ~ missing s -> number_value s q -> numeric_cell s (Num q).
(** a field of a text column *)
Inductive text_cell (s : str) : cell -> Prop :=
| tc_missing : missing s -> text_cell s NaN
| tc_text : ~ missing s -> text_cell s (Txt s).
(** what a csv column becomes *)
Inductive column_read (texts : list str) : list cell -> Prop :=
| cr_numeric : forall cs, Forall2 numeric_cell texts cs -> column_read texts cs
| cr_text : forall cs s, In s texts -> ~ missing s -> ~ a_number s -> Forall2 text_cell texts cs -> column_read texts cs.
(** a number, or missing if it cannot be read *)
Inductive coerced (s : str) : cell -> Prop :=
| co_number : forall q, number_value s q -> coerced s (Num q)
| co_other : ~ a_number s -> coerced s NaN.

(** ** Csv files *)
Definition fields_of (delim : ascii) (body : str) (r : list str) : Prop :=
  r <> [] /\ Forall (fun f => ~ In delim f) r /\ body = join [delim] r.
(** a line without its newline *)
Definition body_of (l body : str) : Prop := ~ In nl body /\ (l = body \/ l = body ++ [nl]).
(** nothing but blanks that are not separators *)
Definition blank_line (delim : ascii) (body : str) : Prop :=
  Forall (fun c => (c = " "%char \/ c = tab) /\ c <> delim) body.
(** the rows of fields of a file after the first [skip] lines *)
Definition csv_file (delim : ascii) (skip : nat) (text : str) (rows : list (list str)) : Prop :=
  exists lines head rest bodies kept, file_lines text lines /\
    lines = head ++ rest /\ (List.length head = skip \/ (List.length head < skip)%nat /\ rest = []) /\
    Forall2 body_of rest bodies /\
    selected (fun b => ~ blank_line delim b) bodies kept /\ Forall2 (fields_of delim) kept rows.
(** field number [k], empty if the line is too short *)
Inductive field_at (k : nat) (r : list str) : str -> Prop :=
| fa_some : forall s, nth_error r k = Some s -> field_at k r s
| fa_none : (List.length r <= k)%nat -> field_at k r [].
Definition wide_enough (ks : list nat) (rows : list (list str)) : Prop :=
  rows = [] \/ forall k, In k ks -> exists r, In r rows /\ (k < List.length r)%nat.
(** the table of the named columns *)
Definition csv_table (cols : list (str * nat)) (rows : list (list str)) (f : frame) : Prop :=
  Forall2 (fun (c : str * nat) (col : str * list cell) => fst col = fst c /\
    exists texts, Forall2 (field_at (snd c)) rows texts /\ column_read texts (snd col)) cols f.

(** ** Tables *)
Definition has_column (f : frame) (c : str) (v : list cell) : Prop := In (c, v) f.
Definition has_cell (f : frame) (c : str) (i : nat) (x : cell) : Prop := exists v, has_column f c v /\ nth_error v i = Some x.
(** each name once, columns of [n] rows *)
Definition table (f : frame) (n : nat) : Prop :=
  NoDup (map fst f) /\ f <> [] /\ Forall (fun col => List.length (snd col) = n) f.
(** each element once, in order of first appearance *)
Inductive distinct : list str -> list str -> Prop :=
| di_nil : distinct [] []
| di_cons : forall c l r l', selected (fun x => x <> c) l r -> distinct r l' -> distinct (c :: l) (c :: l').
(** [T] holds the rows of the tables [fs] one after the other *)
Definition stacked (fs : list frame) (T : frame) : Prop :=
  distinct (concat (map (map fst) fs)) (map fst T) /\
  forall c v, has_column T c v ->
    exists parts, v = concat parts /\
      Forall2 (fun f part => has_column f c part \/
                             (~ In c (map fst f) /\ exists n, table f n /\ part = repeat NaN n)) fs parts.

(** a column replaced, or added at the end *)
Inductive with_column (c : str) (v : list cell) : frame -> frame -> Prop :=
| wc_add : forall f, ~ In c (map fst f) -> with_column c v f (f ++ [(c, v)])
| wc_replace : forall a w b, ~ In c (map fst a) -> with_column c v (a ++ (c, w) :: b) (a ++ (c, v) :: b).

(** ** Dates *)
(** a column of texts: not all of them numbers or missing *)
Definition text_column (texts : list str) (cs : list cell) : Prop :=
  (texts = [] \/ exists s, In s texts /\ ~ missing s /\ ~ a_number s) /\ Forall2 text_cell texts cs.
(** a column of numbers *)
Definition number_column (texts : list str) : Prop := texts <> [] /\ Forall (fun s => missing s \/ a_number s) texts.
(** two texts joined by a blank, missing if one of them is *)
Inductive joined : cell -> cell -> cell -> Prop :=
| jo_texts : forall x y, joined (Txt x) (Txt y) (Txt (x ++ lit " " ++ y))
| jo_left : forall c, joined NaN c NaN
| jo_right : forall c, joined c NaN NaN.
(** date and time fields, joined by a blank *)
Definition stamps_of (kd kt : nat) (rows : list (list str)) (stamps : list cell) : Prop :=
  exists dates times ds ts, Forall2 (field_at kd) rows dates /\ Forall2 (field_at kt) rows times /\ text_column dates ds /\ text_column times ts /\
    Forall2 (fun dt st => joined (fst dt) (snd dt) st) (combine ds ts) stamps.
Definition numeric_stamps (kd kt : nat) (rows : list (list str)) : Prop :=
  exists dates times, Forall2 (field_at kd) rows dates /\ Forall2 (field_at kt) rows times /\ (number_column dates \/ number_column times).
(** Seconds since 1970 of year, month, day, hours, minutes, seconds.  The first three only count as
    the number yyyymmdd that they add up to. *)
Inductive parts_read : list cell -> cell -> Prop :=
| pr_time : forall y m d n t yq mq dq h mi s, 1000 <= y <= 9999 -> valid_date (y, m, d) -> day_number (y, m, d) n ->
    (yq * inject_Z 10000 + mq * inject_Z 100 + dq == inject_Z (y * 10000 + m * 100 + d))%Q ->
    (t == inject_Z n * inject_Z 86400 + h * inject_Z 3600 + mi * inject_Z 60 + s)%Q ->
    parts_read [Num yq; Num mq; Num dq; Num h; Num mi; Num s] (Time t)
| pr_missing : forall l, List.length l = 6%nat -> In NaN l -> Forall (fun c => c = NaN \/ exists q, c = Num q) l -> parts_read l NaN.
