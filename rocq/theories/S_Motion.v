(** Specification for property C113 (coherence of motions and monitors, from files). *)
From Coq Require Import ZArith QArith Reals Qreals Ascii String Arith Bool List.
From Verif Require Import M_Str M_Table S_Base S_Table S_Coh.
Import ListNotations.
Open Scope R_scope.

(** A cell with a number, or an empty one. *)
Definition number (x : option Q) : cell := match x with Some q => Num q | None => NaN end.
Definition real (x : option Q) : option R := match x with Some q => Some (Q2R q) | None => None end.

(** What is compared with a monitor: at each of the times [tsec] the largest of the last 1000 samples [mv] of the motion, on the
    line between two of its times [mt]; 0 where one of those samples is missing. *)
Definition envelope (tsec mt : list R) (mv : list (option R)) (r : list R) : Prop :=
  length r = length tsec /\
  forall i t, (i < length tsec)%nat -> nth i tsec 0 = t ->
  (t < nth 0 mt 0 -> nth i r 0 = 0) /\
  forall j, (j < length mt)%nat -> nth j mt 0 <= t -> ((S j < length mt)%nat -> t < nth (S j) mt 0) ->
  (t = nth j mt 0 \/ S j = length mt ->
     (complete mv j -> exists m, is_max mv (j - 999) j m /\ nth i r 0 = m) /\
     (~ complete mv j -> nth i r 0 = 0)) /\
  (nth j mt 0 < t -> (S j < length mt)%nat ->
     (complete mv j -> complete mv (S j) -> exists m m', is_max mv (j - 999) j m /\ is_max mv (j - 998) (S j) m' /\
        nth i r 0 = on_line (nth j mt 0) m (nth (S j) mt 0) m' t) /\
     (~ (complete mv j /\ complete mv (S j)) -> nth i r 0 = 0)).

(** The curve of a monitor [x] with a series [y]: frequencies and coherences.  A missing sample in any segment leaves nothing of
    the curve. *)
Definition curve (x : list (option R)) (y freq : list R) (coh : list (option R)) : Prop :=
  exists N s K, segmentation (length x) N s K /\ (0 < K)%nat /\ length freq = S (Nat.div N 2) /\ length coh = S (Nat.div N 2) /\
  forall f, (f <= Nat.div N 2)%nat ->
  nth f freq 0 = INR f / INR N /\
  ((exists k j, (k < K)%nat /\ (j < N)%nat /\ nth (k * s + j) x None = None) -> nth f coh None = None) /\
  forall v, (forall k j, (k < K)%nat -> (j < N)%nat -> nth (k * s + j) x None = Some (nth (k * s + j) v 0)) ->
    (power N s K v f = 0 \/ power N s K y f = 0 -> nth f coh None = None) /\
    (power N s K v f <> 0 -> power N s K y f <> 0 -> nth f coh None = Some (msc N s K v y f)).
