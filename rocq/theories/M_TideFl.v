(** Model of shipgrav/grav.py, lines 20-187, in floating point: the tide prediction computed with
    rounded operations (see M_Float.v).  The function is a sequence of assignments; each is an
    expression over the results so far.  A library function returns the same value whenever it
    is given the same argument (it need not be the correctly rounded one). *)
From Coq Require Import List ZArith QArith Reals.
From Verif Require Import M_Py M_Np M_Cal M_Tide M_Float.
Import ListNotations.
Open Scope R_scope.

(** A sequence of assignments: each value is appended to the results. *)
Fixpoint run (ev : (nat -> R) -> fx -> R) (xs : list R) (p : list fx) : list R :=
  match p with
  | [] => xs
  | e :: p => run ev (xs ++ [ev (args xs) e]) p
  end.

(** grav.py 34-35: arguments [dt.days], [dt.seconds] *)
Definition century_fx : fx := Div (Add (Arg 0) (Div (Div (Arg 1) (Int 3600)) (Int 24))) (Int 36525).
(** grav.py 36-37: arguments hour, minute, second *)
Definition hour_fx : fx := Add (Add (Arg 0) (Div (Arg 1) (Int 60))) (Div (Arg 2) (Int 3600)).

(** grav.py 20-39 and 77-81 *)
Definition tide_time_fl (F : farith) (timestamp : datetime) : res (R * R) :=
  do dt <- sub_us timestamp origin_time;
  let a := eval_fl F (args [IZR (td_days dt); IZR (td_seconds dt)]) century_fx in
  let b := eval_fl F (args [IZR (hour timestamp); IZR (minute timestamp); IZR (second timestamp)]) hour_fx in
  Ok (a, if Rlt_dec b 0 then rnd F (b + 24) else b).

(** grav.py 89-101, constants *)
Definition q_mu : fx := Cst 6.673e-8.
Definition q_M : fx := Cst 7.3537e25.
Definition q_S : fx := Cst 1.993e33.
Definition q_e : fx := Cst 0.05490.
Definition q_m : fx := Cst 0.074804.
Definition q_c : fx := Cst 3.84402e10.
Definition q_c1 : fx := Cst 1.495e13.
Definition q_h2 : fx := Cst 0.612.
Definition q_k2 : fx := Cst 0.303.
Definition q_a : fx := Cst 6.378270e8.
Definition q_i : fx := Cst 0.08979719.

(** The variables of the function, by position: arguments and loop results first. *)
Definition v_T : fx := Arg 0.
Definition v_t0 : fx := Arg 1.
Definition v_lon : fx := Arg 2.
Definition v_lat : fx := Arg 3.
Definition v_alt : fx := Arg 4.
Definition v_TT : fx := Arg 5.
Definition v_TTT : fx := Arg 6.
Definition v_omega : fx := Arg 7.
Definition v_lamb : fx := Arg 8.
Definition v_H : fx := Arg 9.
Definition v_L : fx := Arg 10.
Definition v_s : fx := Arg 11.
Definition v_p : fx := Arg 12.
Definition v_h : fx := Arg 13.
Definition v_N : fx := Arg 14.
Definition v_cosI : fx := Arg 15.       (* the argument of arccos, line 119 *)
Definition v_I : fx := Arg 16.
Definition v_sinI : fx := Arg 17.       (* np.sin(I), lines 121, 130, 153 *)
Definition v_nu : fx := Arg 18.
Definition v_t : fx := Arg 19.
Definition v_chi : fx := Arg 20.
Definition v_cos_alpha : fx := Arg 21.
Definition v_sin_alpha : fx := Arg 22.
Definition v_den : fx := Arg 23.        (* 1 + cos_alpha, line 132 *)
Definition v_alpha : fx := Arg 24.
Definition v_xi : fx := Arg 25.
Definition v_sigma : fx := Arg 26.
Definition v_L_moon : fx := Arg 27.
Definition v_p1 : fx := Arg 28.
Definition v_e1 : fx := Arg 29.
Definition v_chi1 : fx := Arg 30.
Definition v_L_sun : fx := Arg 31.
Definition v_cos_theta : fx := Arg 32.
Definition v_cos_phi : fx := Arg 33.
Definition v_C : fx := Arg 34.
Definition v_r : fx := Arg 35.
Definition v_aprime : fx := Arg 36.
Definition v_aprime1 : fx := Arg 37.
Definition v_d : fx := Arg 38.
Definition v_D : fx := Arg 39.
Definition v_gm : fx := Arg 40.
Definition v_gs : fx := Arg 41.
Definition v_love : fx := Arg 42.

Definition sq (e : fx) : fx := Mul e e.

(** grav.py 86-130; the square of an array is a product. *)
Definition tide_prog1 : list fx := [
  Mul v_T v_T;                                                                       (* TT *)
  Mul (Mul v_T v_T) v_T;                                                             (* TTT *)
  Mul (Cst 23.452) Deg;                                                              (* omega *)
  Mul v_lat Deg;                                                                     (* lamb *)
  Mul v_alt (Int 100);                                                               (* H *)
  Neg v_lon;                                                                         (* L *)
  Add (Add (Cst 4.720023434) (Mul (Cst 8399.709299) v_T)) (Mul (Cst 0.0000440696) v_TT);   (* s *)
  Sub (Sub (Add (Cst 5.835124713) (Mul (Cst 71.01800936) v_T)) (Mul (Cst 0.000180545) v_TT))
      (Mul (Cst 0.00000021817) v_TTT);                                               (* p *)
  Add (Add (Cst 4.88162792) (Mul (Cst 628.3319509) v_T)) (Mul (Cst 0.00000527962) v_TT);   (* h *)
  Add (Sub (Cst 4.523588564) (Mul (Cst 33.75715303) v_T)) (Mul (Cst 0.000036749) v_TT);    (* N *)
  Sub (Mul (Cos v_omega) (Cos q_i)) (Mul (Mul (Sin v_omega) (Sin q_i)) (Cos v_N));
  Acos v_cosI;                                                                       (* I *)
  Sin v_I;
  Asin (Div (Mul (Sin q_i) (Sin v_N)) v_sinI);                                       (* nu *)
  Mul (Sub (Mul (Int 15) (Sub v_t0 (Int 12))) v_L) Deg;                              (* t *)
  Sub (Add v_t v_h) v_nu;                                                            (* chi *)
  Add (Mul (Cos v_N) (Cos v_nu)) (Mul (Mul (Sin v_N) (Sin v_nu)) (Cos v_omega));     (* cos_alpha *)
  Div (Mul (Sin v_omega) (Sin v_N)) v_sinI;                                          (* sin_alpha *)
  Add (Int 1) v_cos_alpha].

(** grav.py 132 *)
Definition alpha_fx : fx := Mul (Int 2) (Atan (Div v_sin_alpha v_den)).

(** grav.py 134-185; [np.cos(0.5*omega)**2] is the square of a scalar, and the cube is that of
    an array: both are computed by the power function of the library. *)
Definition tide_prog2 : list fx := [
  Sub v_N v_alpha;                                                                   (* xi *)
  Sub v_s v_xi;                                                                      (* sigma *)
  Add (Add (Add (Add v_sigma (Mul (Mul (Int 2) q_e) (Sin (Sub v_s v_p))))
                (Mul (Mul (Mul (Cst 1.25) q_e) q_e) (Sin (Mul (Int 2) (Sub v_s v_p)))))
           (Mul (Mul (Mul (Cst 3.75) q_m) q_e) (Sin (Add (Sub v_s (Mul (Int 2) v_h)) v_p))))
      (Mul (Mul (Mul (Cst 1.375) q_m) q_m) (Sin (Mul (Int 2) (Sub v_s v_h))));       (* L_moon *)
  Add (Add (Cst 4.908229461) (Mul (Cst 0.03000526416) v_T)) (Mul (Cst 0.000007902463) v_TT); (* p1 *)
  Sub (Sub (Cst 0.01675104) (Mul (Cst 0.0000418) v_T)) (Mul (Cst 0.000000126) v_TT); (* e1 *)
  Add v_t v_h;                                                                       (* chi1 *)
  Add v_h (Mul (Mul (Int 2) v_e1) (Sin (Sub v_h v_p1)));                             (* L_sun *)
  Add (Mul (Mul (Sin v_lamb) v_sinI) (Sin v_L_moon))
      (Mul (Cos v_lamb)
           (Add (Mul (sq (Cos (Mul (Cst 0.5) v_I))) (Cos (Sub v_L_moon v_chi)))
                (Mul (sq (Sin (Mul (Cst 0.5) v_I))) (Cos (Add v_L_moon v_chi)))));   (* cos_theta *)
  Add (Mul (Mul (Sin v_lamb) (Sin v_omega)) (Sin v_L_sun))
      (Mul (Cos v_lamb)
           (Add (Mul (Pow (Cos (Mul (Cst 0.5) v_omega)) 2) (Cos (Sub v_L_sun v_chi1)))
                (Mul (Pow (Sin (Mul (Cst 0.5) v_omega)) 2) (Cos (Add v_L_sun v_chi1)))));  (* cos_phi *)
  Sqrt (Div (Int 1) (Add (Int 1) (Mul (Cst 0.006738) (sq (Sin v_lamb)))));           (* C *)
  Add (Mul v_C q_a) v_H;                                                             (* r *)
  Div (Int 1) (Mul q_c (Sub (Int 1) (Mul q_e q_e)));                                 (* aprime *)
  Div (Int 1) (Mul q_c1 (Sub (Int 1) (Mul v_e1 v_e1)));                              (* aprime1 *)
  Div (Int 1)
      (Add (Add (Add (Add (Div (Int 1) q_c) (Mul (Mul v_aprime q_e) (Cos (Sub v_s v_p))))
                     (Mul (Mul (Mul v_aprime q_e) q_e) (Cos (Mul (Int 2) (Sub v_s v_p)))))
                (Mul (Mul (Mul (Mul (Cst 1.875) v_aprime) q_m) q_e) (Cos (Add (Sub v_s (Mul (Int 2) v_h)) v_p))))
           (Mul (Mul (Mul v_aprime q_m) q_m) (Cos (Mul (Int 2) (Sub v_s v_h)))));     (* d *)
  Div (Int 1) (Add (Div (Int 1) q_c1) (Mul (Mul v_aprime1 v_e1) (Cos (Sub v_h v_p1))));  (* D *)
  Add (Mul (Div (Mul (Mul q_mu q_M) v_r) (Mul (Mul v_d v_d) v_d))
           (Sub (Mul (Int 3) (sq v_cos_theta)) (Int 1)))
      (Mul (Mul (Cst 1.5) (Div (Mul (Mul (Mul q_mu q_M) v_r) v_r) (Mul (Mul (Mul v_d v_d) v_d) v_d)))
           (Sub (Mul (Int 5) (Pow v_cos_theta 3)) (Mul (Int 3) v_cos_theta)));       (* gm *)
  Mul (Div (Mul (Mul q_mu q_S) v_r) (Mul (Mul v_D v_D) v_D))
      (Sub (Mul (Int 3) (sq v_cos_phi)) (Int 1));                                    (* gs *)
  Sub (Add (Int 1) q_h2) (Mul (Cst 1.5) q_k2);                                       (* love *)
  Mul (Mul (Add v_gm v_gs) (Int 1000)) v_love;
  Mul (Mul v_gm (Int 1000)) v_love;
  Mul (Mul v_gs (Int 1000)) v_love].

Definition tide_prog : list fx := tide_prog1 ++ alpha_fx :: tide_prog2.

(** the results g0, gm, gs of one sample *)
Definition t_out_fl (F : farith) (lon lat alt t0 T : R) : R * R * R :=
  let v := run (eval_fl F) [T; t0; lon; lat; alt] tide_prog in (nth 43 v 0, nth 44 v 0, nth 45 v 0).

(** grav.py 42-187, [longman_tide_prediction] for numpy arrays, as in M_Tide.v *)
Definition longman_tide_prediction_fl (F : farith) (lon lat : list R) (times : list datetime)
    (alt : altitude) (return_components : bool) : res tide_result :=
  if negb (length lon =? length lat)%nat then Raise AssertionError else
  if negb (length lon =? length times)%nat then Raise AssertionError else
  do tts <- mapM (tide_time_fl F) times;
  do alts <- match alt with
             | Alt h => Ok (repeat h (length lon))
             | Alts hs => if (length hs =? length lon)%nat then Ok hs else Raise ValueError
             end;
  let outs := map2 (fun f tt => f (snd tt) (fst tt)) (map3 (t_out_fl F) lon lat alts) tts in
  let g0 := map (fun o => fst (fst o)) outs in
  if return_components
  then Ok (Components g0 (map (fun o => snd (fst o)) outs) (map snd outs))
  else Ok (Total g0).
