(** Specification for properties C90 and C91 (coherence of motion and monitors). *)
From Coq Require Import List Reals Arith.
From Verif Require Import S_Base.
Import ListNotations.
Open Scope R_scope.

(** [m] is the largest of the samples [a] to [b] of [l] (both included), none of which is missing. *)
Definition is_max (l : list (option R)) (a b : nat) (m : R) : Prop :=
  (forall i, (a <= i <= b)%nat -> exists v, nth i l None = Some v /\ v <= m) /\
  (exists i, (a <= i <= b)%nat /\ nth i l None = Some m).
(** Sample [i] has 1000 samples up to and including itself, none of which is missing. *)
Definition complete (l : list (option R)) (i : nat) : Prop :=
  (999 <= i)%nat /\ forall j, (i - 999 <= j <= i)%nat -> nth j l None <> None.
(** Value at [t] of the straight line through ([t0], [a]) and ([t1], [b]). *)
Definition on_line (t0 a t1 b t : R) : R := a * ((t1 - t) / (t1 - t0)) + b * ((t - t0) / (t1 - t0)).

(** Segments: [N] samples, the next one starting [s] samples later. *)
Definition seg_mean (x : list R) (N start : nat) : R := Rsum N (fun j => nth (start + j) x 0) / INR N.
(** Hann taper *)
Definition taper (N j : nat) : R := (1 - cos (2 * PI * INR j / INR N)) / 2.
(** real and imaginary part of the Fourier coefficient [f] of segment [k] *)
Definition four_re (N s : nat) (x : list R) (f k : nat) : R :=
  Rsum N (fun j => taper N j * (nth (k * s + j) x 0 - seg_mean x N (k * s)) * cos (2 * PI * INR f * INR j / INR N)).
Definition four_im (N s : nat) (x : list R) (f k : nat) : R :=
  - Rsum N (fun j => taper N j * (nth (k * s + j) x 0 - seg_mean x N (k * s)) * sin (2 * PI * INR f * INR j / INR N)).
(** power, co-spectrum and quadrature spectrum: sums over the [K] segments *)
Definition power (N s K : nat) (x : list R) (f : nat) : R :=
  Rsum K (fun k => four_re N s x f k ^ 2 + four_im N s x f k ^ 2).
Definition cospec (N s K : nat) (x y : list R) (f : nat) : R :=
  Rsum K (fun k => four_re N s x f k * four_re N s y f k + four_im N s x f k * four_im N s y f k).
Definition quadspec (N s K : nat) (x y : list R) (f : nat) : R :=
  Rsum K (fun k => four_re N s x f k * four_im N s y f k - four_im N s x f k * four_re N s y f k).
(** magnitude-squared coherence, where both series have power *)
Definition msc (N s K : nat) (x y : list R) (f : nat) : R :=
  (cospec N s K x y f ^ 2 + quadspec N s K x y f ^ 2) / (power N s K x f * power N s K y f).
(** How [n] samples are cut: segments of [N] samples, each [s] samples after the one before, as many ([K]) as fit. *)
Definition segmentation (n N s K : nat) : Prop :=
  N = Nat.min 256 n /\ s = (N - Nat.div N 2)%nat /\ forall k, (k < K <-> k * s + N <= n)%nat.
(** Times in order. *)
Definition ordered (l : list R) : Prop := forall a b, (a <= b < length l)%nat -> nth a l 0 <= nth b l 0.
