(** Specification for property C103: from files to the free-air anomaly. *)
From Coq Require Import ZArith QArith Reals Qreals Ascii String Bool Sorted Permutation List.
From Verif Require Import M_Str M_Table S_Table S_ReadNav S_Corr S_Tide.
Import ListNotations.
Open Scope Z_scope.

(** A sorting function: the positions of the elements of a list in an order in which they do not decrease. *)
Definition sorts (argsort : list Q -> list nat) : Prop := forall l,
  Permutation (argsort l) (seq 0 (List.length l)) /\ StronglySorted (fun i j => nth i l 0 <= nth j l 0)%Q (argsort l).

(** The rows of a table in the order [idx]. *)
Definition rearranged (idx : list nat) (T T' : frame) : Prop :=
  Forall2 (fun c c' : str * list cell => fst c' = fst c /\ Forall2 (fun i x => nth_error (snd c) i = Some x) idx (snd c')) T T'.
(** An order of the rows 0 .. n-1 in which the times do not decrease. *)
Definition time_order (us : list Z) (idx : list nat) : Prop :=
  Permutation idx (seq 0 (List.length us)) /\ StronglySorted (fun i j => nth i us 0 <= nth j us 0) idx.

(** No two times are the same. *)
Definition distinct_times (ts : list Q) : Prop := forall i j, (i < j < List.length ts)%nat -> ~ (nth i ts 0 == nth j ts 0)%Q.

(** Microseconds from 0001-01-01 to the end of 9999-12-31, counted from 1970. *)
Definition in_calendar (i : Z) : Prop := -62135596800000000 <= i < 253402300800000000.

(** The table of a gravimeter: instants in microseconds and readings of all rows. *)
Definition meter_table (T : frame) (us : list Z) (gs : list Q) : Prop :=
  table T (List.length us) /\ (exists ts, has_column T (lit "date_time") (map Time ts) /\ Forall2 (fun t i => t == i # 1000000)%Q ts us) /\
  has_column T (lit "rgrav") (map Num gs) /\ Forall in_calendar us.

(** Navigation files with two different times at least and one position only. *)
Definition lying_still (files : list file_data) (x y : R) : Prop :=
  Forall (fun f => Forall (fun v => v = Some x) (lons f) /\ Forall (fun v => v = Some y) (lats f)) files /\
  exists t1 t2, t1 <> t2 /\ Exists (fun f => In t1 (times f)) files /\ Exists (fun f => In t2 (times f)) files.

(** The anomaly at the instant [i] of a reading [g] at [x], [y] *)
Definition still_anomaly (x y bias : R) (g : Q) (i : Z) (T : R) : R :=
  (Q2R g + bias - somigliana (rad y) + (lunar_tide T x y 0 (utc_hours i) + solar_tide T x y 0 (utc_hours i)))%R.

(** Along a parallel at [q] radians of longitude a second: the longitude in degrees at the instant [t], [l0] at [i0]. *)
Definition steady_lon (l0 q : R) (i0 t : Z) : R := (l0 + q * 180 / PI * (IZR (t - i0) / 1000000))%R.
(** Navigation files of such a ship on the latitude [y], in any order, without gaps in which it moves more than a degree. *)
Definition along_parallel (files : list file_data) (y l0 q : R) (i0 : Z) : Prop :=
  let known t := Exists (fun f => In t (times f)) files in
  Forall (fun f => forall k t, nth_error (times f) k = Some t -> nth_error (lons f) k = Some (Some (steady_lon l0 q i0 t)) /\ nth_error (lats f) k = Some (Some y)) files /\
  (exists t1 t2, t1 <> t2 /\ known t1 /\ known t2) /\
  forall t t', known t -> known t' -> t < t' -> exists t'', known t'' /\ t < t'' /\ (Rabs (q * 180 / PI * (IZR (t'' - t) / 1000000)) <= 1)%R.
