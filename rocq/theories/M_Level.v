(** Model of example-scripts/dgs_ccp_calc.py, lines 104-146: accelerations from navigation, level error,
    cross-coupling fit and correction.  Positions are finite; over R with NaN as [None]. *)
From Coq Require Import List Reals Arith.
From Verif Require Import M_Py M_Np M_Nav M_Up M_CC.
Import ListNotations.
Open Scope R_scope.

(** [np.convolve(x, tay10, 'same')] for at least 11 samples: NaN wherever one of the 11 samples reached by
    the weights is NaN (0*NaN is NaN). *)
Definition is_nan (v : option R) : bool := match v with None => true | Some _ => false end.
Definition convolve_nan (x : list (option R)) : list (option R) :=
  map (fun k => if existsb is_nan (slice x (k - 5) (k + 6)) then None
                else Some (nth k (convolve_same (map getv x) tay10) 0)) (seq 0 (length x)).

(** dgs_ccp_calc.py 107-110 *)
Definition scaled (c : R) (x : list (option R)) : list (option R) := map (option_map (fun v => c * v)) x.

(** dgs_ccp_calc.py 115-116: course of one sample, NaN replaced by 0 (lines 117-118 do the same to [vel],
    which is not used). *)
Definition course (ve vn : option R) : R :=
  match ve, vn with Some e, Some n => fst (ENvel_to_course_heading1 e n) | _, _ => 0 end.

(** dgs_ccp_calc.py 120-121: cross and long acceleration of one sample. *)
Definition rotated (h : R) (e n : option R) : option R * option R :=
  match e, n with
  | Some e, Some n => let (c, l) := rotate_acceleration_EN_to_cl h e n in (Some c, Some l)
  | _, _ => (None, None)
  end.

(** dgs_ccp_calc.py 107-121: (acc_cross, acc_long) *)
Definition platform_acc (lon lat : list R) (sampling : R) : res (list (option R) * list (option R)) :=
  do v <- latlon_to_EN lon lat 1;
  let (gps_vn, gps_ve) := v in
  let gps_vn := scaled sampling gps_vn in
  let gps_ve := scaled sampling gps_ve in
  let gps_eacc := scaled (1e5 * sampling) (convolve_nan gps_ve) in
  let gps_nacc := scaled (1e5 * sampling) (convolve_nan gps_vn) in
  let crse := map2 course gps_ve gps_vn in
  let acc := map3 rotated crse gps_eacc gps_nacc in
  Ok (map fst acc, map snd acc).

(** dgs_ccp_calc.py 126-129, one sample: [u] is the column (up[0], up[1], up[2]). *)
Definition level_sample (g acc_cross acc_long : R) (u : R * R * R) : R :=
  let '(u0, u1, u2) := u in
  let igf_in_plat := g * u2 in
  let cross_in_plat := acc_cross * u1 in
  let long_in_plat := acc_long * u0 in
  g - igf_in_plat - long_in_plat + cross_in_plat.

(** dgs_ccp_calc.py 124-129; the accelerations are the arrays as [up_vecs] leaves them, without NaN.  The
    scalar 0 for [on_off] masks nothing. *)
Definition level_error (lat_corr : list R) (acc_cross acc_long : list (option R)) (sampling : R) : res (list R) :=
  do r <- up_vecs (1 / sampling) (map Some lat_corr) acc_cross acc_long (repeat (Some 0) (length acc_cross)) 240 0.7071 240 0.7071;
  Ok (map (fun k => level_sample (nth k lat_corr 0) (getv (nth k (u_cacc r) None)) (getv (nth k (u_lacc r) None)) (nth k (u_vecs r) (0, 0, 0)))
          (seq 0 (length lat_corr))).

(** dgs_ccp_calc.py 107-129 *)
Definition level_script (lon lat lat_corr : list R) (sampling : R) : res (list R) :=
  do a <- platform_acc lon lat sampling; level_error lat_corr (fst a) (snd a) sampling.

(** dgs_ccp_calc.py 131-136: the table without its first two rows, [level_error] whole. *)
Definition ccp_table (faa vcc ve al ax level : list R) : res cc_df :=
  cc_table (skipn 2 faa) (skipn 2 vcc) (skipn 2 ve) (skipn 2 al) (skipn 2 ax) level None 1.

(** dgs_ccp_calc.py 143-146; [params] is const, ve, vcc, al, ax, lev, or the same without const. *)
Definition named_param (params : list R) (k : nat) : R := nth (length params - 5 + k) params 0.
Definition faa_ccp (params : list R) (faa vcc ve al ax : list R) : list R :=
  map (fun k => nth k (skipn 2 faa) 0 + named_param params 0 * nth k (skipn 2 ve) 0 + named_param params 1 * nth k (skipn 2 vcc) 0
              + named_param params 2 * nth k (skipn 2 al) 0 + named_param params 3 * nth k (skipn 2 ax) 0)
      (seq 0 (length (skipn 2 faa))).
