(** Model of [crustal_thickness_2D], /repo/shipgrav/grav.py 1135-1256, over exact reals and complex
    numbers.  [ur] is a 1-D array of numbers. *)
From Coq Require Import List Reals Arith Bool.
From Verif Require Import M_Py M_Fft M_Four.
Import ListNotations.
Open Scope R_scope.

(** grav.py 1201-1203 and 1206-1208: index on an axis of [n] points; [i > n/2 + 1] as reals *)
Definition crust_index (n i : nat) : R :=
  if (n + 2 <? 2 * i)%nat then (INR n / 2 + 1) * 2 - INR i else INR i.

(** grav.py 1193-1211: [kwn1[i, j]] ([dx], [dy] in cm) *)
Definition crust_kwn (nx ny : nat) (dx dy : R) (i j : nat) : R :=
  let kint1 := 2 * PI / (INR nx * dx) in
  let kint2 := if Req_EM_T dy 0 then 0 else 2 * PI / (INR ny * dy) in
  let yyk := kint2 ^ 2 * (crust_index ny j - 1) ^ 2 in
  let xxk := kint1 ^ 2 * (crust_index nx i - 1) ^ 2 in
  sqrt (xxk + yyk).

(** grav.py 1221-1226: [wgt] *)
Definition crust_wgt (kcut1 kcut2 k : R) : R :=
  let dkcut := kcut2 - kcut1 in
  if Rlt_dec kcut2 k then 0
  else if Rlt_dec kcut1 k then
    let t := (k - kcut1) / dkcut * PI in (cos t + 1) / 2
  else 1.

(** [ur.reshape(nx, ny)], row by row *)
Definition reshape (nx ny : nat) (l : list R) : list (list R) :=
  map (fun i => map (fun j => nth (i * ny + j) l 0) (seq 0 ny)) (seq 0 nx).

(** Both loops over the array elements, grav.py 1219-1229 and 1241-1244. *)
Definition cweight (nx ny : nat) (w : nat -> nat -> R) (g : list (list Cx)) : list (list Cx) :=
  map (fun i => map (fun j => cscal (w i j) (get2 C0 g i j)) (seq 0 ny)) (seq 0 nx).

(** grav.py 1171-1250.  The result is the thickness and, when [back] is true, the recovered gravity;
    both are complex columns in the code.  Divisions by a zero Python number raise
    ZeroDivisionError.  The mean of an empty array is NaN in numpy; nx*ny = 0 raises before it
    matters. *)
Definition crustal_thickness_2D (ur : list R) (nx ny : nat) (dx dy zdown rho wlarge wsmall : R) (back : bool)
  : res (list Cx * option (list Cx)) :=
  if negb (if Rlt_dec wsmall wlarge then true else false) then Raise AssertionError else
  let ave := np_mean ur in
  let ur := map (fun u => -0.001 * (u - ave)) ur in
  let dx := dx * 1e5 in
  let dy := dy * 1e5 in
  let zdown := zdown * 1e5 in
  let wlarge := wlarge * 1e5 in
  let wsmall := wsmall * 1e5 in
  if Req_EM_T wlarge 0 then Raise ZeroDivisionError else
  let kcut1 := 2 * PI / wlarge in
  if Req_EM_T wsmall 0 then Raise ZeroDivisionError else
  let kcut2 := 2 * PI / wsmall in
  if (nx * ny =? 0)%nat then Raise ZeroDivisionError else
  let prod := 1 / INR (nx * ny) in
  let G := 6.673e-8 in
  if Req_EM_T rho 0 then Raise ZeroDivisionError else
  let topo1 := 1 / (2 * PI * G * rho) in
  if Req_EM_T dx 0 then Raise ZeroDivisionError else
  let kwn1 := crust_kwn nx ny dx dy in
  if negb (length ur =? nx * ny)%nat then Raise ValueError else
  let ur_arr := reshape nx ny ur in
  let ft := fft2 nx ny (map (map cre) ur_arr) in
  let ft := cweight nx ny (fun i j => exp (kwn1 i j * zdown) * topo1 * crust_wgt kcut1 kcut2 (kwn1 i j)) ft in
  let ur_2 := map (fun c => cscal (prod / 1e5) c) (concat (fft2 nx ny ft)) in
  if negb back then Ok (ur_2, None) else
  let ft' := cweight nx ny (fun i j => - exp (- kwn1 i j * zdown) / topo1) ft in
  let ur_back := map (fun c => cadd (cscal (prod * 1000) c) (cre ave)) (concat (fft2 nx ny ft')) in
  Ok (rev ur_2, Some (rev ur_back)).
