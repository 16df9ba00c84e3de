(** Model of shipgrav/grav.py in floating point: [center_diff] (457-475), [eotvos_full]
    (194-296), [free_air_second_order] (303-318), [wgs_grav] (321-333).

    A formula of the code is written as an expression, with the operations in the order in
    which Python performs them.  [eval] gives its exact value (M_Corr.v is that value, see the
    theorems C99_..._formula) and [eval_fl] the value when every operation is rounded.
    [rnd] is the rounding of one operation; [fsin], [fcos], [fatan], [fasin], [facos] are the
    functions of the library, [fpow] is its power with an integer exponent.  Square roots and divisions are correctly rounded (IEEE 754).  Overflow and NaN
    are not represented. *)
From Coq Require Import List ZArith QArith Qreals Reals.
From Verif Require Import M_Py.
Import ListNotations.
Open Scope R_scope.

Inductive fx : Type :=
| Arg (n : nat)            (* an argument *)
| Int (z : Z)              (* an integer, exact in binary64 *)
| Cst (q : Q)              (* a decimal constant of the source, rounded once *)
| Deg                    (* pi/180, of [np.deg2rad] *)
| Neg (e : fx)
| Add (e f : fx) | Sub (e f : fx) | Mul (e f : fx) | Div (e f : fx)
| Sqrt (e : fx) | Sin (e : fx) | Cos (e : fx) | Atan (e : fx)
| Asin (e : fx) | Acos (e : fx)
| Pow (e : fx) (n : nat).

(** The exact value. *)
Fixpoint eval (x : nat -> R) (e : fx) : R :=
  match e with
  | Arg n => x n
  | Int z => IZR z
  | Cst q => Q2R q
  | Deg => PI / 180
  | Neg e => - eval x e
  | Add e f => eval x e + eval x f
  | Sub e f => eval x e - eval x f
  | Mul e f => eval x e * eval x f
  | Div e f => eval x e / eval x f
  | Sqrt e => sqrt (eval x e)
  | Sin e => sin (eval x e)
  | Cos e => cos (eval x e)
  | Atan e => atan (eval x e)
  | Asin e => asin (eval x e)
  | Acos e => acos (eval x e)
  | Pow e n => eval x e ^ n
  end.

(** What floating point computes with. *)
Record farith : Type := {
  rnd : R -> R; fsin : R -> R; fcos : R -> R; fatan : R -> R; fasin : R -> R; facos : R -> R;
  fpow : R -> nat -> R }.

(** The computed value; a change of sign is exact. *)
Fixpoint eval_fl (F : farith) (x : nat -> R) (e : fx) : R :=
  match e with
  | Arg n => x n
  | Int z => IZR z
  | Cst q => rnd F (Q2R q)
  | Deg => rnd F (rnd F PI / 180)
  | Neg e => - eval_fl F x e
  | Add e f => rnd F (eval_fl F x e + eval_fl F x f)
  | Sub e f => rnd F (eval_fl F x e - eval_fl F x f)
  | Mul e f => rnd F (eval_fl F x e * eval_fl F x f)
  | Div e f => rnd F (eval_fl F x e / eval_fl F x f)
  | Sqrt e => rnd F (sqrt (eval_fl F x e))
  | Sin e => fsin F (eval_fl F x e)
  | Cos e => fcos F (eval_fl F x e)
  | Atan e => fatan F (eval_fl F x e)
  | Asin e => fasin F (eval_fl F x e)
  | Acos e => facos F (eval_fl F x e)
  | Pow e n => fpow F (eval_fl F x e) n
  end.

(** Arguments given as a list. *)
Definition args (l : list R) : nat -> R := fun n => nth n l 0.

(** grav.py 321-333, [wgs_grav]; argument 0 is the latitude.  [x**2] is [x*x]. *)
Definition wgs_fx : fx :=
  let s := Sin (Mul (Arg 0) Deg) in
  let sinsq := Mul s s in
  let num := Add (Int 1) (Mul (Cst 0.00193185265241) sinsq) in
  let den := Sqrt (Sub (Int 1) (Mul (Cst 0.00669437999014) sinsq)) in
  Mul (Cst 978032.53359) (Div num den).
Definition wgs_grav_fl (F : farith) (lat : R) : R := eval_fl F (args [lat]) wgs_fx.

(** grav.py 303-318, [free_air_second_order]; arguments latitude and height. *)
Definition free_air_fx (free_water : bool) : fx :=
  let s := Sin (Mul (Arg 0) Deg) in
  let s2lat := Mul s s in
  let c := if free_water then Cst 0.22242 else Cst 0.3087691 in
  Add (Neg (Mul (Sub c (Mul (Cst 0.0004398) s2lat)) (Arg 1)))
      (Mul (Cst 7.2125e-8) (Mul (Arg 1) (Arg 1))).
Definition free_air_second_order_fl (F : farith) (lat ht : R) (free_water : bool) : R :=
  eval_fl F (args [lat; ht]) (free_air_fx free_water).

(** grav.py 470 and 472: arguments y[i-1], y[i], y[i+1], samp. *)
Definition diff1_fx : fx := Mul (Sub (Arg 2) (Arg 0)) (Div (Arg 3) (Int 2)).
Definition diff2_fx : fx := Mul (Add (Sub (Arg 0) (Mul (Int 2) (Arg 1))) (Arg 2)) (Mul (Arg 3) (Arg 3)).

(** [np.deg2rad] *)
Definition deg_fx : fx := Mul (Arg 0) Deg.

(** grav.py 227-292 for one interior sample; the arguments are, in this order, a, b, latr, dlat,
    ddlat, dlon, ddlon, ht, dht, ddht. *)
Definition fvec : Type := (fx * fx * fx)%type.
Definition fvadd (u v : fvec) : fvec :=
  let '(a, b, c) := u in let '(x, y, z) := v in (Add a x, Add b y, Add c z).
Definition fvscale (k : fx) (v : fvec) : fvec := let '(x, y, z) := v in (Mul k x, Mul k y, Mul k z).
Definition fcross (u v : fvec) : fvec :=
  let '(a, b, c) := u in let '(x, y, z) := v in
  (Sub (Mul b z) (Mul c y), Sub (Mul c x) (Mul a z), Sub (Mul a y) (Mul b x)).

Definition eotvos_fx : fx :=
  let a := Arg 0 in let b := Arg 1 in let latr := Arg 2 in let dlat := Arg 3 in let ddlat := Arg 4 in
  let dlon := Arg 5 in let ddlon := Arg 6 in let ht := Arg 7 in let dht := Arg 8 in let ddht := Arg 9 in
  let We := Cst 0.00007292115 in
  let ecc := Div (Sub a b) a in
  let slat := Sin latr in let clat := Cos latr in
  let s2lat := Sin (Mul (Int 2) latr) in let c2lat := Cos (Mul (Int 2) latr) in
  let rp := Mul a (Sub (Int 1) (Mul (Mul ecc slat) slat)) in
  let drp := Mul (Mul (Mul (Neg a) dlat) ecc) s2lat in
  let ddrp := Sub (Mul (Mul (Mul (Neg a) ddlat) ecc) s2lat)
                  (Mul (Mul (Mul (Mul (Mul (Int 2) a) dlat) dlat) ecc) c2lat) in
  let D := Atan (Mul ecc s2lat) in
  let dD := Mul (Mul (Mul (Int 2) dlat) ecc) c2lat in
  let ddD := Sub (Mul (Mul (Mul (Int 2) ddlat) ecc) c2lat)
                 (Mul (Mul (Mul (Mul (Int 4) dlat) dlat) ecc) s2lat) in
  let r := (Mul (Neg rp) (Sin D), Int 0, Sub (Mul (Neg rp) (Cos D)) ht) in
  let rdot := (Sub (Mul (Neg drp) (Sin D)) (Mul (Mul rp dD) (Cos D)), Int 0,
               Sub (Add (Mul (Neg drp) (Cos D)) (Mul (Mul rp dD) (Sin D))) dht) in
  let ci := Sub (Sub (Mul (Neg ddrp) (Sin D)) (Mul (Mul (Mul (Int 2) drp) dD) (Cos D)))
                (Mul rp (Sub (Mul ddD (Cos D)) (Mul (Mul dD dD) (Sin D)))) in
  let ck := Sub (Add (Add (Mul (Neg ddrp) (Cos D)) (Mul (Mul (Mul (Int 2) drp) dD) (Sin D)))
                     (Mul rp (Add (Mul ddD (Sin D)) (Mul (Mul dD dD) (Cos D))))) ddht in
  let rdotdot := (ci, Int 0, ck) in
  let w := (Mul (Add dlon We) clat, Neg dlat, Mul (Neg (Add dlon We)) slat) in
  let wdot := (Sub (Mul dlon clat) (Mul (Mul (Add dlon We) dlat) slat), Neg ddlat,
               Sub (Mul (Neg ddlon) slat) (Mul (Mul (Add dlon We) dlat) clat)) in
  let w2xrdot := fcross (fvscale (Int 2) w) rdot in
  let wdotxr := fcross wdot r in
  let wxr := fcross w r in
  let wxwxr := fcross w wxr in
  let we := (Mul We clat, Int 0, Mul (Neg We) slat) in
  let wexr := fcross we r in
  let wexwexr := fcross we wexr in
  let acc := fvadd (fvadd (fvadd rdotdot w2xrdot) wdotxr) wxwxr in
  Mul (Sub (snd acc) (snd wexwexr)) (Int 100000).

(** grav.py 194-296, [eotvos_full], at the interior sample [k] (0 < k < length - 1): the
    latitudes and longitudes are converted to radians, differenced, and put in the formula;
    every intermediate array holds doubles. *)
Definition eotvos_args_fl (F : farith) (lon lat ht : list R) (samp a b : R) (k : nat) : list R :=
  let rad (l : list R) (i : nat) := eval_fl F (args [nth i l 0]) deg_fx in
  let d (f : fx) (y : nat -> R) := eval_fl F (args [y (k - 1)%nat; y k; y (k + 1)%nat; samp]) f in
  let lonr := rad lon in let latr := rad lat in let h (i : nat) := nth i ht 0 in
  [a; b; latr k; d diff1_fx latr; d diff2_fx latr; d diff1_fx lonr; d diff2_fx lonr;
   h k; d diff1_fx h; d diff2_fx h].
Definition eotvos_at_fl (F : farith) (lon lat ht : list R) (samp a b : R) (k : nat) : R :=
  eval_fl F (args (eotvos_args_fl F lon lat ht samp a b k)) eotvos_fx.

(** grav.py 294: the first and last values repeat their neighbours. *)
Definition eotvos_full_fl (F : farith) (lon lat ht : list R) (samp a b : R) : res (list R) :=
  if negb ((length lon =? length lat)%nat && (length ht =? length lat)%nat)%bool then Raise ValueError else
  let E := map (fun k => eotvos_at_fl F lon lat ht samp a b (S k)) (seq 0 (length lat - 2)) in
  match E with
  | [] => Raise IndexError
  | e0 :: _ => Ok (e0 :: E ++ [last E 0])
  end.
