(** Specification for property C114: laptop and serial files of a gravimeter side by side. *)
From Coq Require Import ZArith QArith Reals Ascii String Bool List.
From Verif Require Import M_Str S_Nmea M_Table.
Import ListNotations.
Open Scope Z_scope.

(** The calibrated columns: name, channel, names of gain and zero in the meter's ini file, counts at full scale. *)
Definition channels : list (string * string * string * string * Q) :=
  [("grav_cal", "Gravity", "GravCal", "g0", 8388607%Q); ("long_cal", "Long", "LongCal", "LongOffset", 8388607%Q);
   ("cross_cal", "Cross", "CrossCal", "CrossOffset", 8388607%Q); ("beam_cal", "Beam", "beamgain", "beamzero", 8388607%Q);
   ("temp_cal", "Temp", "stempgain", "stempoffset", 1%Q); ("pressure_cal", "Pressure", "pressgain", "presszero", 1%Q);
   ("electemp_cal", "ElecTemp", "Etempgain", "Etempzero", 1%Q)]%string.

(** Gain [g] per [full] counts, and zero [z]; what is missing stays missing. *)
Inductive calibrated_cell (full g z : Q) : option Q -> cell -> Prop :=
| cc_missing : calibrated_cell full g z None NaN
| cc_number : forall a b, (b * full == a * g + z * full)%Q -> calibrated_cell full g z (Some a) (Num b).

(** The rows of [order] between the instants [lo] and [hi] (these two excluded), each with its time and a value. *)
Definition between (lo hi : Z) (us : list Z) (order rows : list nat) : Prop := selected (fun i => lo < nth i us 0 < hi) order rows.
Definition drawn (us : list Z) (value : nat -> cell -> Prop) (rows : list nat) (curve : list (cell * cell)) : Prop :=
  Forall2 (fun i (p : cell * cell) => (exists t, fst p = Time t /\ (t == nth i us 0%Z # 1000000)%Q) /\ value i (snd p)) rows curve.
