(** Model of shipgrav/utils.py, lines 178-278: class [_SnappingCursor]. *)
From Coq Require Import List ZArith Reals Bool.
From Verif Require Import M_Py.
Import ListNotations.
Open Scope R_scope.

(** A row of the DataFrame [data]: columns tsec, lon_new, lat_new (utils.py 194-195). *)
Record row : Type := Row { tsec : R; lon_new : R; lat_new : R }.

(** Fixed inputs: points of the line in the first axis, table of rows
    (utils.py 218, 223). *)
Record env : Type := Env { line : list (R * R); data : list row }.

(** Object state (utils.py 215-230).  [hline]/[vline] are the drawn positions of the
    cross hair, [dot] the drawn position of the dot, [scat] the data of the drawn picks
    (matplotlib stores copies). *)
Record state : Type := St {
  last_index : option Z;
  x_seg : list R; y_seg : list R; i_seg : list nat;
  hline : R; vline : R; hvis : bool; vvis : bool;
  dot : R * R;
  scat : list R * list R }.

(** Mouse events: movement (in the first axis or not, and its x data), and clicks
    (button number and x data, [None] outside of all axes). *)
Inductive event : Type :=
| Move (inaxes : bool) (xd : R)
| Click (button : Z) (xd : option R).

(** utils.py 215-230, [__init__]; artists are created visible. *)
Definition init (minx maxy : R) (dot0 : R * R) : state :=
  St None [] [] [] maxy minx true true dot0 ([], []).

(** [np.searchsorted(xs, v)] (side left) for sorted [xs]: index of the first element
    not below [v] (utils.py 247). *)
Fixpoint searchsorted (xs : list R) (v : R) : nat :=
  match xs with
  | [] => O
  | a :: t => if Rlt_dec a v then S (searchsorted t v) else O
  end.

(** [np.argmin]: index of the first minimum; loop carrying the best so far. *)
Fixpoint argmin_loop (l : list R) (i best : nat) (bv : R) : nat :=
  match l with
  | [] => best
  | a :: t => if Rlt_dec a bv then argmin_loop t (S i) i a else argmin_loop t (S i) best bv
  end.
Definition argmin (l : list R) : res nat :=
  match l with
  | [] => Raise ValueError
  | a :: t => Ok (argmin_loop t 1 0 a)
  end.

(** [np.argmin(abs(x - self.data['tsec']))] (utils.py 258, 266). *)
Definition nearest_row (d : list row) (x : R) : res nat :=
  argmin (map (fun r => Rabs (x - tsec r)) d).

(** utils.py 232-236, [set_cross_hair_visible]. *)
Definition set_cross_hair_visible (s : state) (v : bool) : state :=
  St (last_index s) (x_seg s) (y_seg s) (i_seg s) (hline s) (vline s) v v (dot s) (scat s).

(** [l[i]] for a Python index that may be -1 (only -1 can occur here). *)
Definition pyget {A : Type} (l : list A) (i : Z) : res A :=
  if (i <? 0)%Z then getr l (Z.to_nat (Z.of_nat (length l) + i)) else getr l (Z.to_nat i).

(** utils.py 238-261, [on_mouse_move]. *)
Definition on_mouse_move (e : env) (s : state) (inaxes : bool) (xd : R) : state * option exn :=
  if negb inaxes then
    let s := St None (x_seg s) (y_seg s) (i_seg s) (hline s) (vline s) (hvis s) (vvis s) (dot s) (scat s) in
    (set_cross_hair_visible s false, None)
  else
    let s := set_cross_hair_visible s true in
    let index := Z.min (Z.of_nat (searchsorted (map fst (line e)) xd)) (Z.of_nat (length (line e)) - 1) in
    match last_index s with
    | Some li => if (index =? li)%Z then (s, None) else
      let s := St (Some index) (x_seg s) (y_seg s) (i_seg s) (hline s) (vline s) (hvis s) (vvis s) (dot s) (scat s) in
      match pyget (line e) index with
      | Raise er => (s, Some er)
      | Ok (x, y) =>
        let s := St (last_index s) (x_seg s) (y_seg s) (i_seg s) y x (hvis s) (vvis s) (dot s) (scat s) in
        match nearest_row (data e) x with
        | Raise er => (s, Some er)
        | Ok ind =>
          match nth_error (data e) ind with
          | None => (s, Some IndexError)
          | Some r =>
            (St (last_index s) (x_seg s) (y_seg s) (i_seg s) (hline s) (vline s) (hvis s) (vvis s)
                (lon_new r, lat_new r) (scat s), None)
          end
        end
      end
    | None =>
      let s := St (Some index) (x_seg s) (y_seg s) (i_seg s) (hline s) (vline s) (hvis s) (vvis s) (dot s) (scat s) in
      match pyget (line e) index with
      | Raise er => (s, Some er)
      | Ok (x, y) =>
        let s := St (last_index s) (x_seg s) (y_seg s) (i_seg s) y x (hvis s) (vvis s) (dot s) (scat s) in
        match nearest_row (data e) x with
        | Raise er => (s, Some er)
        | Ok ind =>
          match nth_error (data e) ind with
          | None => (s, Some IndexError)
          | Some r =>
            (St (last_index s) (x_seg s) (y_seg s) (i_seg s) (hline s) (vline s) (hvis s) (vvis s)
                (lon_new r, lat_new r) (scat s), None)
          end
        end
      end
    end.

(** Python [list.pop()]: IndexError on an empty list. *)
Definition pop {A : Type} (l : list A) : option (list A) :=
  match l with [] => None | _ => Some (removelast l) end.

(** utils.py 264-270: left button. *)
Definition left_click (e : env) (s : state) (xd : option R) : state * option exn :=
  match xd with
  | None => (s, Some TypeError)
  | Some x =>
    match nearest_row (data e) x with
    | Raise er => (s, Some er)
    | Ok ind =>
      match nth_error (data e) ind with
      | None => (s, Some IndexError)
      | Some r =>
        let xs := x_seg s ++ [lon_new r] in
        let ys := y_seg s ++ [lat_new r] in
        (St (last_index s) xs ys (i_seg s ++ [ind]) (hline s) (vline s) (hvis s) (vvis s) (dot s) (xs, ys), None)
      end
    end
  end.

(** utils.py 272-276: right button; three pops one after the other. *)
Definition right_click (s : state) : state * option exn :=
  match pop (x_seg s) with
  | None => (s, Some IndexError)
  | Some xs =>
    let s := St (last_index s) xs (y_seg s) (i_seg s) (hline s) (vline s) (hvis s) (vvis s) (dot s) (scat s) in
    match pop (y_seg s) with
    | None => (s, Some IndexError)
    | Some ys =>
      let s := St (last_index s) xs ys (i_seg s) (hline s) (vline s) (hvis s) (vvis s) (dot s) (scat s) in
      match pop (i_seg s) with
      | None => (s, Some IndexError)
      | Some is =>
        (St (last_index s) xs ys is (hline s) (vline s) (hvis s) (vvis s) (dot s) (xs, ys), None)
      end
    end
  end.

(** utils.py 263-278, [on_mouse_click]. *)
Definition on_mouse_click (e : env) (s : state) (button : Z) (xd : option R) : state * option exn :=
  if (button =? 1)%Z then left_click e s xd
  else if (button =? 3)%Z then right_click s
  else (s, None).

(** One event.  matplotlib reports an exception raised in a callback and keeps
    delivering events to the same object. *)
Definition step (e : env) (s : state) (ev : event) : state * option exn :=
  match ev with
  | Move ia xd => on_mouse_move e s ia xd
  | Click b xd => on_mouse_click e s b xd
  end.

(** A history of events. *)
Definition run (e : env) (s : state) (evs : list event) : state :=
  fold_left (fun s ev => fst (step e s ev)) evs s.
