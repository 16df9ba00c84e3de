(** Specification for properties C54-C59: navigation lines, as a ship's logger writes them. *)
From Coq Require Import ZArith Reals Ascii String Bool List.
From Verif Require Import M_Str S_Str S_Cal.
Import ListNotations.
Open Scope Z_scope.

(** No proper beginning of the talker is also its end (true of GPGGA, INGGA, GNGGA ...). *)
Definition unbordered (t : str) : Prop := forall p q r, t = p ++ q -> t = r ++ p -> p = [] \/ q = [].
Definition usable (talker : str) : Prop := talker <> [] /\ unbordered talker.

(** The lines of [l] that satisfy [P], in order. *)
Inductive selected {A : Type} (P : A -> Prop) : list A -> list A -> Prop :=
| sel_nil : selected P [] []
| sel_yes : forall a l l', P a -> selected P l l' -> selected P (a :: l) (a :: l')
| sel_no : forall a l l', ~ P a -> selected P l l' -> selected P (a :: l) l'.

Definition comma : ascii := ","%char.

(** [ln] is [pre], the talker, and the comma separated [fields], which follow the talker directly
    or after a comma and possibly blanks. *)
Inductive sentence (talker ln pre : str) (fields : list str) : Prop :=
| sen_comma : forall ws, Forall space ws -> fields <> [] -> Forall (fun f => ~ In comma f) fields ->
    ~ occurs talker (ws ++ comma :: join [comma] fields) ->
    ln = pre ++ talker ++ ws ++ comma :: join [comma] fields -> sentence talker ln pre fields
| sen_direct : forall ws c f rest, Forall space ws -> fields = (c :: f) :: rest -> ~ space c ->
    Forall (fun f => ~ In comma f) fields ->
    ~ occurs talker (ws ++ join [comma] fields) ->
    ln = pre ++ talker ++ ws ++ join [comma] fields -> sentence talker ln pre fields.

(** A decimal number with [k] decimals after a whole part of [w] digits: value whole + f / 10^k. *)
Definition decimal_text (w : nat) (whole : Z) (k : nat) (f : Z) : str :=
  pad w whole ++ match k with O => [] | S _ => "."%char :: pad k f end.

(** ddmm.mmm: degrees with [w] digits, minutes with two digits and [k] decimals. *)
Definition position_text (w : nat) (deg min : Z) (k : nat) (f : Z) : str := pad w deg ++ decimal_text 2 min k f.

Inductive hemisphere (plus minus : string) : str -> R -> Prop :=
| hem_plus : hemisphere plus minus (lit plus) 1
| hem_minus : hemisphere plus minus (lit minus) (-1).

(** The fields give this position in signed decimal degrees. *)
Inductive position (fields : list str) (lon lat : R) : Prop :=
| pos_intro : forall clock ns ew rest s1 s2 d1 m1 k1 f1 d2 m2 k2 f2,
    fields = clock :: position_text 2 d1 m1 k1 f1 :: ns :: position_text 3 d2 m2 k2 f2 :: ew :: rest ->
    0 <= d1 < 100 -> 0 <= m1 < 100 -> 0 <= f1 < 10 ^ Z.of_nat k1 ->
    0 <= d2 < 1000 -> 0 <= m2 < 100 -> 0 <= f2 < 10 ^ Z.of_nat k2 ->
    hemisphere "N" "S" ns s1 -> hemisphere "E" "W" ew s2 ->
    lat = (s1 * (IZR d1 + (IZR m1 + IZR f1 / 10 ^ k1) / 60))%R ->
    lon = (s2 * (IZR d2 + (IZR m2 + IZR f2 / 10 ^ k2) / 60))%R -> position fields lon lat.

(** The receiver had no fix: the latitude or the longitude is empty. *)
Definition no_position (fields : list str) : Prop :=
  (exists clock rest, fields = clock :: [] :: rest) \/
  (exists clock la ns rest, fields = clock :: la :: ns :: [] :: rest).

(** hhmmss.ff with [k] decimals of the second. *)
Definition clock_text (h mi s : Z) (k : nat) (f : Z) : str := pad 2 h ++ pad 2 mi ++ decimal_text 2 s k f.

(** The clock of the line, in the part before its first comma-separated field. *)
Definition shows_clock (fields : list str) (h mi s : Z) (k : nat) (f : Z) : Prop :=
  (exists rest, fields = clock_text h mi s k f :: rest) /\
  0 <= h < 24 /\ 0 <= mi < 60 /\ 0 <= s < 60 /\ 0 <= f < 10 ^ Z.of_nat k.

(** The fraction of the second is a whole number [c] of hundredths that needs both decimals, or zero. *)
Definition hundredths (k : nat) (f c : Z) : Prop :=
  f * 100 = c * 10 ^ Z.of_nat k /\ 0 <= c < 100 /\ (c = 0 \/ c mod 10 <> 0).

(** Date with day of year [doy] in year [y]. *)
Definition day_of_year (y doy : Z) (t : date) : Prop := exists n, days_after (y, 1, 1) n t /\ doy = Z.of_nat n + 1.

(** ** Dates in the line prefixes *)
Inductive Atlantis_date (pre : str) : date -> Prop :=
| at_date : forall a b y m d, pre = a ++ lit "NAV " ++ pad 4 y ++ lit "/" ++ pad 2 m ++ lit "/" ++ pad 2 d ++ b ->
    ~ occurs (lit "NAV ") a -> 1 <= y <= 9999 -> valid_date (y, m, d) -> Atlantis_date pre (y, m, d).
Inductive NBP_date (pre : str) : date -> Prop :=
| nbp_date : forall a b yy w doy t, pre = a ++ pad 2 yy ++ lit "+" ++ pad w doy ++ lit ":" ++ b ->
    ~ In "+"%char a -> (w = 2 \/ w = 3)%nat -> 0 <= yy < 100 -> 1 <= doy < 10 ^ Z.of_nat w -> doy <= 366 ->
    day_of_year (2000 + yy) doy t -> NBP_date pre t.
Inductive Thompson_date (pre : str) : date -> Prop :=
| th_date : forall a b y m d, pre = a ++ pad 2 m ++ lit "/" ++ pad 2 d ++ lit "/" ++ pad 4 y ++ b ->
    ~ In "/"%char a -> 1 <= y <= 9999 -> valid_date (y, m, d) -> Thompson_date pre (y, m, d).
(** a line of a Revelle file that starts with a date *)
Definition dated_line (l : str) (y m d : Z) : Prop :=
  exists b, l = pad 4 y ++ lit "-" ++ pad 2 m ++ lit "-" ++ pad 2 d ++ b /\ 0 <= y < 10000 /\ 0 <= m < 100 /\ 0 <= d < 100.

(** Whole line stamps: posix seconds before " $INGGA" ... *)
Inductive posix_stamp (ln : str) : Z -> Prop :=
| posix_intro : forall a w s k f b i, ln = a ++ decimal_text w s k f ++ lit " $INGGA" ++ b ->
    ~ In "$"%char a -> (forall a' c, a = a' ++ [c] -> ~ digit c /\ c <> "."%char) -> (0 < w)%nat ->
    0 <= s < 10 ^ Z.of_nat w -> 0 <= f < 10 ^ Z.of_nat k -> (k <= 6)%nat -> s < 253402300800 ->
    i = s * 1000000 + f * 10 ^ Z.of_nat (6 - k) -> posix_stamp ln i.
(** ... ISO dates ending in Z (fraction of up to six digits) *)
Inductive iso_stamp (ln : str) : Z -> Prop :=
| iso_intro : forall a b y m d h mi s k f i,
    ln = a ++ pad 4 y ++ lit "-" ++ pad 2 m ++ lit "-" ++ pad 2 d ++ lit "T" ++ pad 2 h ++ lit ":" ++ pad 2 mi ++ lit ":" ++ pad 2 s ++ lit "." ++ pad k f ++ lit "Z" ++ b ->
    ~ In "T"%char a -> 1 <= y <= 9999 -> valid_date (y, m, d) -> 0 <= h < 24 -> 0 <= mi < 60 -> 0 <= s < 60 ->
    (1 <= k <= 6)%nat -> 0 <= f < 10 ^ Z.of_nat k ->
    instant (y, m, d) h mi s (f * 10 ^ Z.of_nat (6 - k)) i -> iso_stamp ln i.
(** ... yyyy:ddd:hh:mm:ss.fff in the second tab separated column after "seapath" *)
Inductive seapath_stamp (pre : str) : Z -> Prop :=
| sea_intro : forall a b c y w doy h mi s k f t i,
    pre = a ++ lit "seapath" ++ b ++ tab :: (pad 4 y ++ lit ":" ++ pad w doy ++ lit ":" ++ pad 2 h ++ lit ":" ++ pad 2 mi ++ lit ":" ++ pad 2 s ++ lit "." ++ pad k f) ++ c ->
    ~ occurs (lit "seapath") a ->
    ~ occurs (lit "seapath") (b ++ tab :: (pad 4 y ++ lit ":" ++ pad w doy ++ lit ":" ++ pad 2 h ++ lit ":" ++ pad 2 mi ++ lit ":" ++ pad 2 s ++ lit "." ++ pad k f) ++ c) ->
    ~ In tab b -> (c = [] \/ exists c', c = tab :: c') ->
    1 <= y < 9999 -> (1 <= w <= 3)%nat -> 1 <= doy < 10 ^ Z.of_nat w -> doy <= 366 -> 0 <= h < 24 -> 0 <= mi < 60 -> 0 <= s < 60 ->
    (1 <= k <= 6)%nat -> 0 <= f < 10 ^ Z.of_nat k ->
    day_of_year y doy t -> instant t h mi s (f * 10 ^ Z.of_nat (6 - k)) i -> seapath_stamp pre i.

(** ** Revelle files: blocks of other lines, each followed by a talker line; then a tail. *)
Definition revelle_text (blocks : list (list str * str)) (tail : list str) : list str :=
  concat (map (fun b => fst b ++ [snd b]) blocks) ++ tail.
Definition revelle_layout (talker : str) (blocks : list (list str * str)) (tail : list str) : Prop :=
  Forall (fun b => Forall (fun l => ~ occurs talker l) (fst b) /\ occurs talker (snd b)) blocks /\
  Forall (fun l => ~ occurs talker l) tail.
Definition undated (l : str) : Prop := forall y m d, ~ dated_line l y m d.
(** the date of the last dated line of a block *)
Definition last_dated (block : list str) (t : date) : Prop :=
  let '(y, m, d) := t in exists b1 l b2, block = b1 ++ l :: b2 /\ dated_line l y m d /\ Forall undated b2.

(** ** Whole lines *)
(** one row of the result *)
Definition fix_read (talker ln : str) (r : option R * option R) : Prop :=
  exists pre fields, sentence talker ln pre fields /\
    ((exists lon lat, position fields lon lat /\ r = (Some lon, Some lat)) \/ (no_position fields /\ r = (None, None))).

(** the fraction f / 10^k is g / 10^n in lowest decimal terms *)
Definition lowest (k : nat) (f : Z) (g : Z) (n : nat) : Prop := (n <= k)%nat /\ f = g * 10 ^ Z.of_nat (k - n) /\ g mod 10 <> 0.

(** the clock is read for any fraction of up to 14 decimals that is at least 1e-4 or follows a second *)
Definition readable (s : Z) (k : nat) (f : Z) : Prop := (k <= 14)%nat /\ (f = 0 \/ 1 <= s \/ 10 ^ Z.of_nat k <= f * 10000).

(** lines with a date in the prefix and a clock after the talker *)
Definition stamped (D : str -> date -> Prop) (talker ln : str) (i : Z) : Prop :=
  exists pre fields t h mi s k f c, sentence talker ln pre fields /\ ~ occurs talker pre /\ D pre t /\
    shows_clock fields h mi s k f /\ hundredths k f c /\ instant t h mi s (c * 10000) i.
Definition stamped_seconds (D : str -> date -> Prop) (talker ln : str) (i : Z) : Prop :=
  exists pre fields t h mi s k f, sentence talker ln pre fields /\ ~ occurs talker pre /\ D pre t /\
    shows_clock fields h mi s k f /\ readable s k f /\ instant t h mi s 0 i.

Definition seapath_line_stamp (talker ln : str) (i : Z) : Prop :=
  exists pre fields, sentence talker ln pre fields /\ ~ occurs talker pre /\ seapath_stamp pre i.

(** what a block gives *)
Definition block_read (talker : str) (b : list str * str) (r : option Z) : Prop :=
  exists pre fields h mi s k f c, sentence talker (snd b) pre fields /\ shows_clock fields h mi s k f /\ hundredths k f c /\
    ((exists y m d i, last_dated (fst b) (y, m, d) /\ 1 <= y <= 9999 /\ valid_date (y, m, d) /\ instant (y, m, d) h mi s (c * 10000) i /\ r = Some i)
     \/ (Forall undated (fst b) /\ r = None)).
