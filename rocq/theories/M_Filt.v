(** Model of the low-pass filter of the example scripts (dgs_bgm_comp.py lines 131-139, the same in
    dgs_ccp_calc.py 150-158, dgs_raw_comp.py 224-231, interactive_line_pick.py 93-100, mru_coherence.py
    106-113, RMBA_calc.py 158-164): [filtfilt(B, 1, x)] with [B = firwin(480, 1/120, window='blackman')].
    Series are finite; over R. *)
From Coq Require Import List Reals Arith.
From Verif Require Import M_Py M_Np M_CC.
Import ListNotations.
Open Scope R_scope.

(** scipy.signal._arraytools.odd_ext(x, n) (library), for [n < len(x)]: x[n:0:-1] mirrored in the first
    value, x, and x[-2:-(n+2):-1] mirrored in the last value. *)
Definition odd_ext (x : list R) (n : nat) : list R :=
  let left_end := nth 0 x 0 in
  let right_end := nth (length x - 1) x 0 in
  map (fun v => 2 * left_end - v) (rev (slice x 1 (n + 1))) ++ x ++
  map (fun v => 2 * right_end - v) (rev (slice x (length x - 1 - n) (length x - 1))).

(** scipy.signal.lfilter_zi(b, 1) (library): the state which a constant input of 1 leaves behind. *)
Definition lfilter_zi (b : list R) : list R :=
  map (fun k => pysum (tl b) - pysum (firstn k (tl b))) (seq 0 (length b - 1)).

(** scipy.signal.lfilter(b, 1, x, zi=zi*x0)[0]: the convolution, [zi*x0] added to its first values. *)
Definition lfilter_start (b x : list R) (x0 : R) : list R :=
  map (fun k => nth k (lfilter_fir b x) 0 + nth k (lfilter_zi b) 0 * x0) (seq 0 (length x)).

(** scipy.signal.filtfilt(b, 1, x) (library): padding of three times the number of taps, forwards,
    backwards, padding cut off. *)
Definition filtfilt (b x : list R) : res (list R) :=
  let edge := (3 * Nat.max 1 (length b))%nat in
  if (length x <=? edge)%nat then Raise ValueError else
  let ext := odd_ext x edge in
  let y := lfilter_start b ext (nth 0 ext 0) in
  let y0 := nth (length y - 1) y 0 in
  let y := rev (lfilter_start b (rev y) y0) in
  Ok (slice y edge (length y - edge)).

(** dgs_bgm_comp.py 131-136, sampling = 1 *)
Definition script_taps : nat := 480.
Definition script_B : list R := firwin script_taps (1 / 240 / (1 / 2)).
Definition script_filter (x : list R) : res (list R) := filtfilt script_B x.

(** dgs_bgm_comp.py 153-158, interactive_line_pick.py 104-106: [a[taps:-taps//2]]; [-taps//2] is -240. *)
Definition script_trim (a : list R) : list R := slice a script_taps (length a - 240).
