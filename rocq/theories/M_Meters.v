(** Model of example-scripts/dgs_bgm_comp.py 75-139: from the files of two gravimeters to their two low-passed anomalies. *)
From Coq Require Import ZArith QArith Reals String List.
From Verif Require Import M_Py M_Str M_Ini M_Table M_Nan M_Script.
Import ListNotations.

(** lines 138-139, after the lines of [dgs_bgm_script]; the sampling rate is 1, as line 45 of the script has it (M_Filt.v) *)
Definition meters_script (argsort : list Q -> list nat) (fsys : fs) (to_datetime : list cell -> res (list cell)) (ship : str)
  (nav_files dgs_files bgm_files : list str) (bias_dgs bias_bgm : R) : res (list (option R) * list (option R)) :=
  do r <- dgs_bgm_script argsort fsys to_datetime ship nav_files dgs_files bgm_files bias_dgs bias_bgm 1;
  let '((_, faa_d, _), (_, faa_b, _)) := r in
  do dfaa <- script_filter_nan faa_d;
  do bfaa <- script_filter_nan faa_b;
  Ok (dfaa, bfaa).
