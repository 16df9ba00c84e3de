(** Specification for property C97: what a time or position in the result stands for in the text. *)
From Coq Require Import ZArith QArith Qabs Reals Qreals Ascii String Bool List.
From Verif Require Import M_Str S_Str S_Cal S_Nmea S_Table S_Other.
Import ListNotations.
Open Scope Z_scope.

(** Value of what Python's float() reads as a finite number. *)
Definition float_value (s : str) (q : Q) : Prop :=
  exists t sg i f m x sv n e, trimmed s t /\ well_underscored t /\ without_underscores t = sg ++ m ++ x /\ sign_value sg sv /\ i ++ f <> [] /\ mantissa i f m /\
    whole (i ++ f) n /\ exponent_value x e /\
    (q == inject_Z (sv * n) * Qpower (inject_Z 10) (e - Z.of_nat (List.length f)))%Q.
(** Texts for infinite values and nan. *)
Definition not_finite (s : str) : Prop :=
  exists t sg u, trimmed s t /\ well_underscored t /\ without_underscores t = sg ++ u /\ sign_opt sg /\ special u.

(** The line up to the first talker. *)
Definition before_talker (talker ln pre : str) : Prop := exists rest, ln = pre ++ talker ++ rest /\ none_before talker ln (List.length pre).
(** The first text of the form [T] in [pre]. *)
Definition first_text {K : Type} (T : str -> K -> Prop) (pre : str) (k : K) : Prop :=
  exists u v, pre = u ++ v /\ T v k /\ forall u' v' k', pre = u' ++ v' -> (List.length u' < List.length u)%nat -> ~ T v' k'.
Definition nav_text (v : str) (t : Z * Z * Z) : Prop :=
  let '(y, m, d) := t in exists b, v = lit "NAV " ++ pad 4 y ++ lit "/" ++ pad 2 m ++ lit "/" ++ pad 2 d ++ b /\ 0 <= y < 10000 /\ 0 <= m < 100 /\ 0 <= d < 100.
Definition us_text (v : str) (t : Z * Z * Z) : Prop :=
  let '(y, m, d) := t in exists b, v = pad 2 m ++ lit "/" ++ pad 2 d ++ lit "/" ++ pad 4 y ++ b /\ 0 <= y < 10000 /\ 0 <= m < 100 /\ 0 <= d < 100.
Definition doy_text (v : str) (t : Z * Z) : Prop :=
  let '(yy, doy) := t in exists w b, v = pad 2 yy ++ lit "+" ++ pad w doy ++ lit ":" ++ b /\ (w = 2 \/ w = 3)%nat /\ 0 <= yy < 100 /\ 0 <= doy < 10 ^ Z.of_nat w.

(** Hours and minutes are the first two pairs of characters of the first field; the rest is a number, of which the
        decimals (without trailing zeros) count as hundredths. *)
Definition clock_written (fields : list str) (h mi s us : Z) : Prop :=
  exists a b c rest q n g, fields = (a ++ b ++ c) :: rest /\ List.length a = 2%nat /\ List.length b = 2%nat /\
    int_value a h /\ int_value b mi /\ float_value c q /\
    (Qabs q == inject_Z (Z.abs s) + inject_Z g / inject_Z (10 ^ Z.of_nat n))%Q /\ (Qle 0 q -> 0 <= s) /\ (Qlt q 0 -> s <= 0) /\
    0 <= g < 10 ^ Z.of_nat n /\ (g = 0 \/ g mod 10 <> 0) /\ us = g * 10000.
(** A time, with a date from the part before the talker and the clock after it. *)
Definition written (D : str -> date -> Prop) (talker ln : str) (t : option Z) : Prop :=
  exists pre pre' fields d h mi s us i, before_talker talker ln pre /\ D pre d /\ valid_date d /\
    sentence talker ln pre' fields /\ clock_written fields h mi s us /\
    0 <= h < 24 /\ 0 <= mi < 60 /\ 0 <= s < 60 /\ 0 <= us < 1000000 /\ instant d h mi s us i /\ t = Some i.
(** The same without the decimals of the second. *)
Definition written_seconds (D : str -> date -> Prop) (talker ln : str) (t : option Z) : Prop :=
  exists pre pre' fields d h mi s us i, before_talker talker ln pre /\ D pre d /\ valid_date d /\
    sentence talker ln pre' fields /\ clock_written fields h mi s us /\
    0 <= h < 24 /\ 0 <= mi < 60 /\ 0 <= s < 60 /\ instant d h mi s 0 i /\ t = Some i.
Definition doy_date (pre : str) (t : date) : Prop :=
  exists yy doy, first_text doy_text pre (yy, doy) /\ 1 <= doy <= 366 /\ day_of_year (2000 + yy) doy t.
(** A block of a Revelle file. *)
Definition written_block (talker : str) (b : list str * str) (t : option Z) : Prop :=
  exists pre fields h mi s us, sentence talker (snd b) pre fields /\ clock_written fields h mi s us /\
    ((exists y m d i, last_dated (fst b) (y, m, d) /\ 1 <= y <= 9999 /\ valid_date (y, m, d) /\ 0 <= h < 24 /\ 0 <= mi < 60 /\ 0 <= s < 60 /\ 0 <= us < 1000000 /\
        instant (y, m, d) h mi s us i /\ t = Some i)
     \/ (Forall undated (fst b) /\ t = None)).
(** yyyy:doy:h:m:s.f, second column after the first "seapath" *)
Definition written_seapath (talker ln : str) (t : option Z) : Prop :=
  exists pre a sea more x rest y wj doy wh h wm mi ws s k f d i, before_talker talker ln pre /\
    pieces (lit "seapath") pre (a :: sea :: more) /\
    fields_of tab sea (x :: (pad 4 y ++ lit ":" ++ pad wj doy ++ lit ":" ++ pad wh h ++ lit ":" ++ pad wm mi ++ lit ":" ++ pad ws s ++ lit "." ++ pad k f) :: rest) /\
    (1 <= wj <= 3)%nat /\ (1 <= wh <= 2)%nat /\ (1 <= wm <= 2)%nat /\ (1 <= ws <= 2)%nat /\ (1 <= k <= 6)%nat /\
    1 <= y <= 9999 /\ 1 <= doy <= 366 /\ 0 <= h < 24 /\ 0 <= mi < 60 /\ 0 <= s < 60 /\ 0 <= f < 10 ^ Z.of_nat k /\
    day_of_year y doy d /\ valid_date d /\ instant d h mi s (f * 10 ^ Z.of_nat (6 - k)) i /\ t = Some i.
(** seconds since 1970 right before " $INGGA", to the nearest microsecond; the longest digits before the first such text *)
Definition posix_text (v : str) (q : Q) : Prop :=
  exists w s k f b p, (0 < w)%nat /\ 0 <= s < 10 ^ Z.of_nat w /\ 0 <= f < 10 ^ Z.of_nat k /\
    v = pad w s ++ p ++ lit " $INGGA" ++ b /\ (p = lit "." ++ pad k f \/ (p = [] /\ k = 0%nat)) /\
    (q == inject_Z s + inject_Z f / inject_Z (10 ^ Z.of_nat k))%Q.
Definition written_posix (ln : str) (t : option Z) : Prop :=
  exists q i, first_text posix_text ln q /\ (Qabs (inject_Z i - q * inject_Z 1000000) <= 1 # 2)%Q /\ t = Some i.
(** yyyy-mm-ddThh:mm:ss.fZ, where .f is a number, cut to microseconds *)
Definition iso_text (v : str) (x : (Z * Z * Z) * (Z * Z * Z) * str) : Prop :=
  let '((y, m, d), (h, mi, s), f) := x in exists c r b,
    v = pad 4 y ++ lit "-" ++ pad 2 m ++ lit "-" ++ pad 2 d ++ lit "T" ++ pad 2 h ++ lit ":" ++ pad 2 mi ++ lit ":" ++ pad 2 s ++ lit "." ++ f ++ lit "Z" ++ b /\
    f = c :: r /\ digit c /\ ~ In "Z"%char r /\ ~ In nl r /\
    0 <= y < 10000 /\ 0 <= m < 100 /\ 0 <= d < 100 /\ 0 <= h < 100 /\ 0 <= mi < 100 /\ 0 <= s < 100.
Definition written_iso (ln : str) (t : option Z) : Prop :=
  exists d h mi s f q us i, first_text iso_text ln (d, (h, mi, s), f) /\ valid_date d /\ 0 <= h < 24 /\ 0 <= mi < 60 /\ 0 <= s < 60 /\
    float_value ("."%char :: f) q /\ (inject_Z us <= q * inject_Z 1000000 < inject_Z (us + 1))%Q /\ 0 <= us < 1000000 /\
    instant d h mi s us i /\ t = Some i.

(** Degrees in the first [w] characters, minutes after them. *)
Definition degrees_written (w : nat) (s : str) (minus : bool) (v : option R) : Prop :=
  exists a b d, s = a ++ b /\ List.length a = w /\ int_value a d /\
    ((exists q, float_value b q /\ v = Some ((if minus then -1 else 1) * (IZR d + Q2R q / 60))%R) \/ (not_finite b /\ v = None)).
Definition position_written (talker ln : str) (lon lat : option R) : Prop :=
  exists pre fields, sentence talker ln pre fields /\
    ((no_position fields /\ lon = None /\ lat = None) \/
     (exists clock la ns lo ew rest, fields = clock :: la :: ns :: lo :: ew :: rest /\ la <> [] /\ lo <> [] /\
        exists south west, (south = true <-> ns = lit "S") /\ (west = true <-> ew = lit "W") /\
        degrees_written 2 la south lat /\ degrees_written 3 lo west lon)).
