(** Model of [read_nav], /repo/shipgrav/io.py 20-147, and [_clean_180cross], 350-376. *)
From Coq Require Import ZArith Reals Ascii String Bool List.
From Verif Require Import M_Py M_Str M_Cal M_Ini M_Nmea.
Import ListNotations.
Open Scope Z_scope.

(** database.toml, [nav-talkers] *)
Definition nav_talkers : list (str * str) :=
  [(lit "Atlantis", lit "GPGGA"); (lit "Thompson", lit "INGGA"); (lit "NBP", lit "GPGGA"); (lit "Ride", lit "INGGA");
   (lit "Revelle", lit "GPGGA"); (lit "Langseth", lit "INGGA"); (lit "Sikuliaq", lit "GPGGA")].
(** dictionary lookup *)
Fixpoint assoc {A : Type} (k : str) (l : list (str * A)) : option A :=
  match l with
  | [] => None
  | (k', v) :: t => if str_eqb k k' then Some v else assoc k t
  end.

(** what a reader function returns: lon, lat, timestamps *)
Definition nav_arrays : Type := (list (option R) * list (option R) * timest)%type.

(** io.py 84-109: the reader for a ship; [None] is the [-999] of line 107 *)
Definition ship_reader (ship : str) (allnav : list str) (talker : str) : res (option nav_arrays) :=
  let with_dates (f : list str -> str -> res (list (option Z))) :=
    do c <- navcoords allnav talker; do t <- f allnav talker; Ok (Some (c, Stamps t)) in
  let ride := do c <- navcoords allnav talker; do t <- navdate_Ride allnav talker; Ok (Some (c, t)) in
  if str_eqb ship (lit "Atlantis") then with_dates navdate_Atlantis
  else if str_eqb ship (lit "NBP") then with_dates navdate_NBP
  else if str_eqb ship (lit "Thompson") then with_dates navdate_Thompson
  else if str_eqb ship (lit "Revelle") then with_dates navdate_Revelle
  else if str_eqb ship (lit "Ride") then ride
  else if str_eqb ship (lit "Langseth") then with_dates navdate_Langseth
  else if str_eqb ship (lit "Sikuliaq") && str_eqb talker (lit "GPGGA") then ride
  else Ok None.

(** [np.unique(t, return_index=True)]: ascending distinct values, each with its first index *)
Fixpoint ins_unique (v : Z) (i : nat) (l : list (Z * nat)) : list (Z * nat) :=
  match l with
  | [] => [(v, i)]
  | (w, j) :: t => if v <? w then (v, i) :: l else if v =? w then l else (w, j) :: ins_unique v i t
  end.
Definition unique_index (t : list Z) : list (Z * nat) :=
  fold_left (fun acc vi => ins_unique (fst vi) (snd vi) acc) (combine t (seq 0 (List.length t))) [].

(** [np.interp(x, xp, fp)] at one point (numpy: a node gives its own value) *)
Fixpoint interp (x : Z) (nodes : list (Z * option R)) : option R :=
  match nodes with
  | [] => None
  | (x0, y0) :: rest =>
      match rest with
      | [] => y0
      | (x1, y1) :: _ =>
          if x <=? x0 then y0
          else if x <? x1 then
            match y0, y1 with
            | Some a, Some b => Some ((b - a) / IZR (x1 - x0) * IZR (x - x0) + a)%R
            | _, _ => None
            end
          else interp x rest
      end
  end.

(** [l[::d]] *)
Fixpoint every {A : Type} (d : nat) (k : nat) (l : list A) : list A :=
  match l with
  | [] => []
  | a :: t => match k with O => a :: every d (d - 1) t | S k' => every d k' t end
  end.
(** io.py 124-127 (a negative step starts from the end) *)
Definition decimated {A : Type} (d : Z) (l : list A) : list A :=
  if d =? 0 then l else if 0 <? d then every (Z.to_nat d) 0 l else every (Z.to_nat (- d)) 0 (rev l).

Definition stamp (t : option Z) : res Z :=
  match t with Some z => Ok z | None => Raise AttributeError end.

(** io.py 114-130: times and positions kept from one file *)
Definition file_rows (sampling : R) (decimate : Z) (lon lat : list (option R)) (times : list (option Z))
  : res (list Z * list (option R) * list (option R)) :=
  do sec_time <- mapM stamp times;
  let idx := map snd (unique_index sec_time) in
  match sec_time with
  | [] => Raise ValueError
  | _ =>
      if Req_EM_T sampling 0 then Raise ValueError else
      do xp <- mapM (fun i => getr sec_time i) idx;
      do fl <- mapM (fun i => getr lon i) idx;
      do ft <- mapM (fun i => getr lat i) idx;
      let lon_out := map (fun x => interp x (combine xp fl)) sec_time in
      let lat_out := map (fun x => interp x (combine xp ft)) sec_time in
      Ok (decimated decimate sec_time, decimated decimate lon_out, decimated decimate lat_out)
  end.

(** [x > y] of elements that may be NaN *)
Definition gt_b (a b : option R) : bool :=
  match a, b with Some x, Some y => if Rlt_dec y x then true else false | _, _ => false end.
Definition omap2 (f : R -> R -> R) (a b : option R) : option R :=
  match a, b with Some x, Some y => Some (f x y) | _, _ => None end.

(** [np.where(abs(np.diff(l)) > 1)[0]] *)
Definition jumps (l : list (option R)) : list nat :=
  filter (fun i => gt_b (omap2 (fun a b => Rabs (b - a)) (nth i l None) (nth (i + 1) l None)) (Some 1%R))
         (seq 0 (List.length l - 1)).

(** float [x % y] *)
Definition Rmod (x y : R) : R := (x - y * IZR (Int_part (x / y)))%R.

Definition count {A : Type} (f : A -> bool) (l : list A) : nat := List.length (filter f l).

(** io.py 354-365 *)
Definition shift180 (lon : list (option R)) : list (option R) :=
  let lpos x := gt_b x (Some 0%R) in
  let lneg x := gt_b (Some 0%R) x in
  if (count lneg lon <? count lpos lon)%nat
  then map (fun x => if lneg x then option_map (fun v => 180 + Rmod v 180)%R x else x) lon
  else map (fun x => if lpos x then option_map (fun v => - (180) + Rmod v (-180))%R x else x) lon.

(** io.py 370-372 *)
Definition bridge (l : list (option R)) (i : nat) : list (option R) :=
  upd l (i + 1) (omap2 (fun a b => (a + b) / 2)%R (nth i l None) (nth (i + 2) l None)).

(** io.py 350-376 ([replace] on line 374 finds nothing to replace; the column has been changed
    in place through [.values]) *)
Definition clean_180cross (lon : list (option R)) : list (option R) :=
  let newlon := shift180 lon in
  let ilocs := jumps newlon in
  if Nat.even (List.length ilocs) then fold_left bridge (every 2 0 ilocs) newlon else newlon.

(** one row of the returned table (the column [stamps] is the instant [time]) *)
Record fix_row : Type := mk_fix { time : Z; fix_lon : option R; fix_lat : option R }.

Inductive nav_result : Type := Refused | Table (rows : list fix_row).

(** io.py 72-129: the loop over the files; [None] is -999 *)
Fixpoint read_files (fsys : fs) (reader : list str -> str -> res (option nav_arrays)) (talker : str) (sampling : R) (decimate : Z)
  (paths : list str) : res (option (list Z * list (option R) * list (option R))) :=
  match paths with
  | [] => Ok (Some ([], [], []))
  | p :: rest =>
      match fsys p with
      | None => Raise FileNotFoundError
      | Some text =>
          do r <- reader (readlines text) talker;
          match r with
          | None | Some (_, _, Sentinel) => Ok None
          | Some (lon, lat, Stamps times) =>
              do rows <- file_rows sampling decimate lon lat times;
              do more <- read_files fsys reader talker sampling decimate rest;
              Ok (match more with
                  | None => None
                  | Some (t, lo, la) => let '(t0, lo0, la0) := rows in Some (t0 ++ t, lo0 ++ lo, la0 ++ la)
                  end)
          end
      end
  end.

(** io.py 132-147 *)
Definition make_table (t : list Z) (lo la : list (option R)) : list fix_row :=
  let idx := unique_index t in
  let lon := map (fun vi => nth (snd vi) lo None) idx in
  let lat := map (fun vi => nth (snd vi) la None) idx in
  let lon := match jumps lon with [] => lon | _ => clean_180cross lon end in
  map3 mk_fix (map fst idx) lon lat.

(** io.py 20-147, [talkers] being the table [nav-talkers] of the database.  [pathlist]: a single path is put into a list. *)
Definition read_nav_from (talkers : list (str * str)) (fsys : fs) (ship : str) (pathlist : list str) (sampling : R) (talker : option str)
  (ship_function : option (list str -> str -> res nav_arrays)) (decimate : Z) : res nav_result :=
  match assoc ship talkers, ship_function with
  | None, None => Ok Refused
  | known, _ =>
      match talker, known with
      | None, None => Ok Refused
      | _, _ =>
          let tk := match talker, known with Some t, _ => t | None, Some t => t | None, None => [] end in
          let reader := match ship_function with
                        | Some f => fun a t => do r <- f a t; Ok (Some r)
                        | None => ship_reader ship
                        end in
          do r <- read_files fsys reader tk sampling decimate pathlist;
          match r with
          | None => Ok Refused
          | Some (t, lo, la) => Ok (Table (make_table t lo la))
          end
      end
  end.
(** with the database of the package *)
Definition read_nav := read_nav_from nav_talkers.
