(** Model of dgs_bgm_comp.py, lines 117-127, in floating point: gravity reduced to the free-air
    anomaly with rounded operations (see M_Float.v, M_TideFl.v), for positions without NaN.
    M_Faa.v has the same lines over the real numbers. *)
From Coq Require Import List ZArith Reals.
From Verif Require Import M_Py M_Np M_Cal M_Tide M_Float M_TideFl.
Import ListNotations.
Open Scope R_scope.

(** dgs_bgm_comp.py 119-120 and 126, 127: arguments are gravity, theoretical gravity, free-air
    correction, Eotvos correction, tide. *)
Definition faa_fx : fx := Add (Add (Sub (Arg 0) (Add (Arg 1) (Arg 2))) (Arg 3)) (Arg 4).
Definition full_fx : fx := Add (Add (Arg 0) (Arg 3)) (Arg 4).

(** dgs_bgm_comp.py 117-127, all columns of the same length: (faa, full_field). *)
Definition corrected_fl (F : farith) (grav lon lat : list R) (times : list datetime) (sampling : R)
  : res (list R * list R) :=
  let ellipsoid_ht := repeat 0 (length lat) in
  do eotvos_corr <- eotvos_full_fl F lon lat ellipsoid_ht sampling 6378137 (rnd F 6356752.3142);
  do tide_corr <- longman_tide_prediction_fl F lon lat times (Alt 0) false;
  let tide_corr := match tide_corr with Total g => g | Components g _ _ => g end in
  let at_sample (f : fx) (k : nat) :=
    eval_fl F (args [nth k grav 0; wgs_grav_fl F (nth k lat 0);
                     free_air_second_order_fl F (nth k lat 0) (nth k ellipsoid_ht 0) false;
                     nth k eotvos_corr 0; nth k tide_corr 0]) f in
  Ok (map (at_sample faa_fx) (seq 0 (length grav)), map (at_sample full_fx) (seq 0 (length grav))).
