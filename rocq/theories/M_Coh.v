(** Model of example-scripts/mru_coherence.py, lines 148-163: envelope of the ship's motion at the times of the gravimeter, and
    its coherence with a monitor.  Over R; [None] is NaN.  The monitors are finite. *)
From Coq Require Import List Reals Arith Bool.
From Verif Require Import M_Py M_Fft M_Four.
Import ListNotations.
Open Scope R_scope.

(** pandas, [series.rolling(w).max()]: the last [w] samples up to this one; NaN before there are so many and whenever one
    of them is NaN (min_periods is the size of the window). *)
Definition omax (a b : option R) : option R := match a, b with Some x, Some y => Some (Rmax x y) | _, _ => None end.
Definition rolling_max (w : nat) (l : list (option R)) : list (option R) :=
  map (fun i => if (S i <? w)%nat then None
                else match slice l (S i - w) (S i) with [] => None | h :: t => fold_left omax t h end)
      (seq 0 (length l)).

(** [np.interp(x, xp, fp)] at one finite place, for times [xp] in order: left and right of the table the first and last
    value; at a time of the table its value (the last one of equal times); else on the line between the neighbours. *)
Definition np_interp (xp : list R) (fp : list (option R)) (x : R) : option R :=
  if Rlt_dec (last xp 0) x then last fp None
  else if Rlt_dec x (nth 0 xp 0) then nth 0 fp None
  else
    let j := (length (filter (fun t => if Rle_dec t x then true else false) xp) - 1)%nat in
    if (j =? length xp - 1)%nat then nth j fp None
    else if Req_EM_T (nth j xp 0) x then nth j fp None
    else match nth j fp None, nth (S j) fp None with
         | Some a, Some b => Some ((b - a) / (nth (S j) xp 0 - nth j xp 0) * (x - nth j xp 0) + a)
         | _, _ => None
         end.

(** lines 153-155: numpy refuses empty tables and tables of different length *)
Definition mru_interp (tsec mru_tsec : list R) (mru : list (option R)) : res (list R) :=
  let fp := rolling_max 1000 mru in
  if (length mru_tsec =? 0)%nat then Raise ValueError
  else if negb (length fp =? length mru_tsec)%nat then Raise ValueError
  else Ok (map (fun t => match np_interp mru_tsec fp t with Some v => v | None => 0 end) tsec).

(** scipy, [get_window('hann', n)] *)
Definition hann (n : nat) : list R :=
  if (n =? 1)%nat then [1] else map (fun j => 1 / 2 - 1 / 2 * cos (2 * PI * INR j / INR n)) (seq 0 n).

(** scipy [_spectral_helper] with default arguments (fs 1, hann, 256 samples in a segment, half of them shared with the next,
    mean of each segment removed, one-sided): Fourier transforms of the segments *)
Definition nperseg (n : nat) : nat := Nat.min 256 n.
Definition noverlap (n : nat) : nat := Nat.div (nperseg n) 2.
Definition nsegments (n : nat) : nat := Nat.div (n - noverlap n) (nperseg n - noverlap n).
Definition segment_fft (x : list R) (k : nat) : list Cx :=
  let n := length x in
  let start := (k * (nperseg n - noverlap n))%nat in
  let seg := slice x start (start + nperseg n) in
  let detrended := map (fun v => v - np_mean seg) seg in
  firstn (S (Nat.div (nperseg n) 2)) (fft (map cre (map2 Rmult (hann (nperseg n)) detrended))).
Definition cconj (a : Cx) : Cx := (fst a, - snd a).
(** scipy [csd(x, y)] for series of equal length: mean over the segments of conj(X) Y, scaled to a density, doubled except
    at frequency 0 and, for segments of even length, at the last frequency *)
Definition csd (x y : list R) : list Cx :=
  let n := length x in
  let scale := 1 / pysum (map (fun w => w * w) (hann (nperseg n))) in
  let sides := fun f => if (f =? 0)%nat || (Nat.even (nperseg n) && (f =? Nat.div (nperseg n) 2)%nat) then 1 else 2 in
  map (fun f => cscal (/ INR (nsegments n))
                  (csum (map (fun k => cscal (scale * sides f)
                                         (cmul (cconj (nth f (segment_fft x k) C0)) (nth f (segment_fft y k) C0)))
                             (seq 0 (nsegments n)))))
      (seq 0 (S (Nat.div (nperseg n) 2))).
(** scipy [coherence(x, y)] for series of equal length, line 157: (frequencies, |Pxy|^2 / Pxx / Pyy); 0/0 is NaN.  Empty
    series give empty results. *)
Definition coherence (x y : list R) : list R * list (option R) :=
  match x with
  | [] => ([], [])
  | _ =>
      let Pxx := map fst (csd x x) in
      let Pyy := map fst (csd y y) in
      let Pxy := csd x y in
      (map (fun f => INR f / INR (nperseg (length x))) (seq 0 (S (Nat.div (nperseg (length x)) 2))),
       map (fun f => let a := sqrt (fst (nth f Pxy C0) ^ 2 + snd (nth f Pxy C0) ^ 2) in
                     if Req_EM_T (nth f Pxx 0) 0 then None else if Req_EM_T (nth f Pyy 0) 0 then None
                     else Some (a ^ 2 / nth f Pxx 0 / nth f Pyy 0))
           (seq 0 (length Pxy)))
  end.

(** lines 153-157 for one motion and one monitor *)
Definition monitor_coherence (tsec monitor mru_tsec : list R) (mru : list (option R)) : res (list R * list (option R)) :=
  do m <- mru_interp tsec mru_tsec mru; Ok (coherence monitor m).
