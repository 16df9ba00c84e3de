(** numpy operations used by several functions of shipgrav (library behaviour, not code of /repo). *)
From Coq Require Import List Reals Arith.
From Verif Require Import M_Py.
Import ListNotations.
Open Scope R_scope.

(** [np.deg2rad], [np.rad2deg] *)
Definition deg2rad (x : R) : R := x * (PI / 180).
Definition rad2deg (x : R) : R := x * (180 / PI).

(** [np.convolve(a, v, 'full')]: entry k is the sum over i of a[i]*v[k-i]. *)
Definition convolve_full (a v : list R) : list R :=
  map (fun k => pysum (map (fun i => nth i a 0 * nth (k - i) v 0) (seq 0 (S k))))
      (seq 0 (length a + length v - 1)).

(** [np.convolve(a, v, 'same')]: the central max(len a, len v) entries, starting at
    (min(len a, len v) - 1)//2. *)
Definition convolve_same (a v : list R) : list R :=
  let s := Nat.div (Nat.min (length a) (length v) - 1) 2 in
  slice (convolve_full a v) s (s + Nat.max (length a) (length v)).

(** [np.arctan2(y, x)] for finite arguments without signed zeros. *)
Definition arctan2 (y x : R) : R :=
  match Rlt_dec 0 x with
  | left _ => atan (y / x)
  | right _ =>
      match Rlt_dec x 0 with
      | left _ => if Rle_dec 0 y then atan (y / x) + PI else atan (y / x) - PI
      | right _ => match Rlt_dec 0 y with
                   | left _ => PI / 2
                   | right _ => if Rlt_dec y 0 then - (PI / 2) else 0
                   end
      end
  end.
