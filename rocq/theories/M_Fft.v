(** numpy's discrete Fourier transforms ([np.fft], library behaviour, not code of /repo) over exact
    complex numbers, as pairs of reals.  Used by the Fourier-domain functions of shipgrav/grav.py. *)
From Coq Require Import List Reals Arith.
From Verif Require Import M_Py.
Import ListNotations.
Open Scope R_scope.

Definition Cx : Type := (R * R)%type.
Definition C0 : Cx := (0, 0).
Definition cre (x : R) : Cx := (x, 0).
Definition cadd (a b : Cx) : Cx := (fst a + fst b, snd a + snd b).
Definition cmul (a b : Cx) : Cx := (fst a * fst b - snd a * snd b, fst a * snd b + snd a * fst b).
Definition cscal (s : R) (a : Cx) : Cx := (s * fst a, s * snd a).
(** e^(i t) *)
Definition cis (t : R) : Cx := (cos t, sin t).
Definition csum (l : list Cx) : Cx := (pysum (map fst l), pysum (map snd l)).

(** [np.fft.fft(x)] and [np.fft.ifft(x)] *)
Definition fft (x : list Cx) : list Cx :=
  let n := length x in
  map (fun m => csum (map (fun j => cmul (nth j x C0) (cis (- (2 * PI * INR m * INR j / INR n)))) (seq 0 n))) (seq 0 n).
Definition ifft (x : list Cx) : list Cx :=
  let n := length x in
  map (fun m => cscal (/ INR n) (csum (map (fun j => cmul (nth j x C0) (cis (2 * PI * INR m * INR j / INR n))) (seq 0 n)))) (seq 0 n).

(** Entry (i, j) of an array given by rows. *)
Definition get2 {A : Type} (d : A) (g : list (list A)) (i j : nat) : A := nth j (nth i g []) d.

(** [np.fft.fft2(g)] and [np.fft.ifft2(g)] of an array of [ny] rows and [nx] columns *)
Definition fft2 (ny nx : nat) (g : list (list Cx)) : list (list Cx) :=
  map (fun a => map (fun b =>
    csum (map (fun i => csum (map (fun j =>
      cmul (get2 C0 g i j) (cis (- (2 * PI * INR a * INR i / INR ny + 2 * PI * INR b * INR j / INR nx)))) (seq 0 nx))) (seq 0 ny)))
    (seq 0 nx)) (seq 0 ny).
Definition ifft2 (ny nx : nat) (g : list (list Cx)) : list (list Cx) :=
  map (fun a => map (fun b =>
    cscal (/ (INR ny * INR nx)) (csum (map (fun i => csum (map (fun j =>
      cmul (get2 C0 g i j) (cis (2 * PI * INR a * INR i / INR ny + 2 * PI * INR b * INR j / INR nx))) (seq 0 nx))) (seq 0 ny))))
    (seq 0 nx)) (seq 0 ny).
