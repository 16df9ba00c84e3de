(** Model of example-scripts/RMBA_calc.py, lines 231-258: crustal thickness along the line.  Over R; [None] is NaN. *)
From Coq Require Import List Reals Arith Bool.
From Verif Require Import M_Py M_CC M_Fft M_Four M_Crust.
Import ListNotations.
Open Scope R_scope.

(** the values, if none is NaN *)
Fixpoint values (l : list (option R)) : option (list R) :=
  match l with
  | [] => Some []
  | Some x :: t => option_map (cons x) (values t)
  | None :: _ => None
  end.

(** RMBA_calc.py 233 *)
Definition line_dx (xobs : list R) : R := np_mean (np_diff xobs) / 1e3.
(** RMBA_calc.py 231-245 with the real parts taken in 250 and 258: [np.real(cthick)] and [np.real(rev_grav)].  One NaN in the anomaly
    makes its mean NaN and with it every value.  [dx] is a numpy number: a line of length 0, for which it is 0, would give NaN
    where [crustal_thickness_2D] of M_Crust raises, and is left out. *)
Definition line_crust (xobs : list R) (RMBA : list (option R)) : res (list (option R) * list (option R)) :=
  let nx := length xobs in
  match values RMBA with
  | Some ur =>
      do cb <- crustal_thickness_2D ur nx 1 (line_dx xobs) 0 5 0.4 30 5 true;
      match cb with
      | (cthick, Some rev_grav) => Ok (map (fun c => Some (fst c)) cthick, map (fun c => Some (fst c)) rev_grav)
      | (_, None) => Raise TypeError
      end
  | None => if negb (length RMBA =? nx * 1)%nat then Raise ValueError else Ok (repeat None nx, repeat None nx)
  end.
(** RMBA_calc.py 256, 258: [cthick[cutoff:-cutoff]] with cutoff = 100 *)
Definition cut_ends {A : Type} (l : list A) : list A := slice_neg l 100 100.
