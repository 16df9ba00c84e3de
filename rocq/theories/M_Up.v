(** Model of shipgrav/grav.py, lines 478-611: [up_vecs], [_tilt_filter], [_calc_up_vecs].
    Arrays hold reals or NaN ([None]); division by a gravity of exactly zero is outside the model
    (numpy gives an infinity; here NaN). *)
From Coq Require Import List Reals Arith.
From Verif Require Import M_Py M_Corr.
Import ListNotations.
Open Scope R_scope.

(** grav.py 506-507: [a[np.isnan(a)] = 0] *)
Definition nan_to_zero (a : list (option R)) : list (option R) :=
  map (fun v => match v with None => Some 0 | Some _ => v end) a.

(** grav.py 510-511: [a[on_off > 0] = 0]; a comparison with NaN is False. *)
Definition mask_zero (a on_off : list (option R)) : list (option R) :=
  map2 (fun v f => match f with Some r => if Rlt_dec 0 r then Some 0 else v | None => v end) a on_off.

(** grav.py 517, 523: [acc/g] *)
Definition nan_div (a g : option R) : option R :=
  match a, g with
  | Some x, Some y => if Req_EM_T y 0 then None else Some (x / y)
  | _, _ => None
  end.

(** The arrays after [nan_to_zero] hold no NaN. *)
Definition getv (v : option R) : R := match v with Some x => x | None => 0 end.
Definition drive (acc g : list (option R)) : list R := map getv (nan_to_zero (map2 nan_div acc g)).

(** grav.py 532-572: [_tilt_filter]; [damp = 0] stands for False as well. *)
Definition tilt_filter (per dt damp : R) : (R * R * R) * (R * R * R) :=
  let damp := if Req_EM_T damp 0 then sqrt 2 / 2 else damp in
  let w0 := (2 * PI) / per in
  let ws := 1 / sqrt (6371100 / 9.8) in
  let om0 := (2 / dt) * tan (w0 * dt / 2) in
  let omS := (2 / dt) * tan (ws * dt / 2) in
  let a := omS ^ 2 - om0 ^ 2 in
  let b := 2 * damp * om0 * (2 / dt) in
  let c := 4 / (dt ^ 2) in
  let d := om0 ^ 2 in
  let d0 := b + c + d in
  let b0 := (a - b) / d0 in
  let b1 := 2 * a / d0 in
  let b2 := (a + b) / d0 in
  let a1 := 2 * (d - c) / d0 in
  let a2 := (c + d - b) / d0 in
  ((b0, b1, b2), (1, a1, a2)).

(** scipy.signal.lfilter(num, den, x) with three coefficients each and den[0] = 1: direct form II
    transposed, zero initial state [z1], [z2]. *)
Fixpoint lfilter2_from (num den : R * R * R) (z1 z2 : R) (x : list R) : list R :=
  match x with
  | [] => []
  | v :: t =>
      let '(b0, b1, b2) := num in
      let '(_, a1, a2) := den in
      let y := b0 * v + z1 in
      y :: lfilter2_from num den (b1 * v + z2 - a1 * y) (b2 * v - a2 * y) t
  end.
Definition lfilter2 (num den : R * R * R) (x : list R) : list R := lfilter2_from num den 0 0 x.

(** [np.matmul] of a 3x3 matrix (three rows) and a vector; [vec3] as in [M_Corr]. *)
Definition dot3 (r v : vec3) : R := let '(a, b, c) := r in let '(x, y, z) := v in a * x + b * y + c * z.
Definition matvec (m : vec3 * vec3 * vec3) (v : vec3) : vec3 :=
  let '(r1, r2, r3) := m in (dot3 r1 v, dot3 r2 v, dot3 r3 v).

(** grav.py 597-610: one pass of the loop *)
Definition up_vec (i : nat) (ctilt ltilt : R) : vec3 :=
  let rotc := ((cos ctilt, 0, - sin ctilt), (0, 1, 0), (sin ctilt, 0, cos ctilt)) in
  let rotl := ((1, 0, 0), (0, cos ltilt, - sin ltilt), (0, sin ltilt, cos ltilt)) in
  let plat_up := (0, 0, 1) in
  if (i mod 2 =? 0)%nat then matvec rotc (matvec rotl plat_up) else matvec rotl (matvec rotc plat_up).

(** grav.py 575-611: columns of the returned 3xN array *)
Definition calc_up_vecs (ctilt ltilt : list R) : res (list vec3) :=
  mapM (fun i => do c <- getr ctilt i; do l <- getr ltilt i; Ok (up_vec i c l)) (seq 0 (length ctilt)).

(** Result of the call: the caller's two acceleration arrays as they are left, and the vectors. *)
Record up_result : Type := mk_up { u_cacc : list (option R); u_lacc : list (option R); u_vecs : list vec3 }.

(** grav.py 478-529; arrays of different lengths raise (boolean index, broadcasting). *)
Definition up_vecs (dt : R) (g cacc lacc on_off : list (option R)) (cper cdamp lper ldamp : R) : res up_result :=
  if negb ((length on_off =? length cacc)%nat && (length on_off =? length lacc)%nat)%bool then Raise IndexError else
  if negb (length g =? length cacc)%nat then Raise ValueError else
  let cacc := mask_zero (nan_to_zero cacc) on_off in
  let lacc := mask_zero (nan_to_zero lacc) on_off in
  let (cnum, cden) := tilt_filter cper dt cdamp in
  let ctilt := lfilter2 cnum cden (drive cacc g) in
  let (lnum, lden) := tilt_filter lper dt ldamp in
  let ltilt := lfilter2 lnum lden (drive lacc g) in
  do v <- calc_up_vecs (map atan ctilt) (map atan ltilt);
  Ok (mk_up cacc lacc v).
