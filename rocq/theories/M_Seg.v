(** Model of example-scripts/interactive_line_pick.py, lines 103-178: picked points become line segments,
    and each segment a file.  A row of the table is a value of [A]; the columns the cursor looks at are given by
    [view].  The text of the written files is not modelled, only the rows in them. *)
From Coq Require Import List Arith ZArith Ascii String Reals.
From Verif Require Import M_Py M_Str M_Cursor.
From Coq Require Import List.
Import ListNotations.

(** line 93: [taps = 2*240] *)
Definition pick_taps : nat := 480.

(** lines 104, 106: [x[taps:-taps//2]]; [-taps//2] is (-480)//2 = -240 *)
Definition trim {A : Type} (x : list A) : list A := slice_neg x pick_taps 240.

(** lines 138-140 *)
Definition even_inds (inds : list nat) : list nat :=
  if (List.length inds mod 2 =? 0)%nat then inds else removelast inds.

(** [min(l)], [max(l)] of a list *)
Definition py_min (l : list nat) : res nat :=
  match l with [] => Raise ValueError | a :: t => Ok (fold_left Nat.min t a) end.
Definition py_max (l : list nat) : res nat :=
  match l with [] => Raise ValueError | a :: t => Ok (fold_left Nat.max t a) end.

(** [range(0, n, 2)] *)
Definition range2 (n : nat) : list nat := map (fun k => 2 * k)%nat (seq 0 ((n + 1) / 2)).

(** lines 142-144 *)
Definition segments (inds : list nat) : res (list (nat * nat)) :=
  mapM (fun i => do a <- py_min (slice inds i (i + 2)); do b <- py_max (slice inds i (i + 2)); Ok (a, b))
       (range2 (List.length inds)).

(** [input(...) or d] *)
Definition or_default (d answer : str) : str := match answer with [] => d | _ => answer end.

(** lines 108-158: each pass shows a new cursor and ends with an answer; passes repeat until the answer is 'y'.
    [None]: the user never accepts. *)
Fixpoint pick_loop (e : env) (minx maxy : R) (dot0 : R * R) (passes : list (list event * str))
  : option (res (list (nat * nat))) :=
  match passes with
  | [] => None
  | (evs, answer) :: rest =>
      match segments (even_inds (i_seg (run e (init minx maxy dot0) evs))) with
      | Raise er => Some (Raise er)
      | Ok segs => if str_eqb (or_default (lit "y") answer) (lit "y") then Some (Ok segs)
                   else pick_loop e minx maxy dot0 rest
      end
  end.

(** [%i] of a natural number *)
Definition dec_digit (n : nat) : ascii := ascii_of_nat (48 + n).
Fixpoint dec_go (fuel n : nat) : str :=
  match fuel with
  | O => []
  | S f => if (n <? 10)%nat then [dec_digit n] else dec_go f (n / 10) ++ [dec_digit (n mod 10)]
  end.
Definition dec (n : nat) : str := dec_go (S n) n.

(** line 176, the file name in the segment directory *)
Definition segment_name (i : nat) (s : nat * nat) : str :=
  lit "segment_s" ++ dec i ++ lit "_" ++ dec (fst s) ++ lit "-" ++ dec (snd s) ++ lit ".dat".

(** A directory: names and the rows stored there. *)
Definition dir (A : Type) : Type := list (str * list A).
Fixpoint lookup {A : Type} (d : dir A) (n : str) : option (list A) :=
  match d with [] => None | (m, c) :: t => if str_eqb m n then Some c else lookup t n end.
Definition store {A : Type} (d : dir A) (n : str) (c : list A) : dir A :=
  (n, c) :: filter (fun f => negb (str_eqb (fst f) n)) d.

(** lines 163-172 *)
Definition prepare {A : Type} (d : dir A) (answer : str) : dir A :=
  match d with
  | [] => d
  | _ => if str_eqb (or_default (lit "k") answer) (lit "c") then [] else d
  end.

(** lines 175-178 *)
Fixpoint write_segments {A : Type} (table : list A) (i : nat) (segs : list (nat * nat)) (d : dir A) : dir A :=
  match segs with
  | [] => d
  | s :: t => write_segments table (S i) t (store d (segment_name i s) (slice table (fst s) (snd s)))
  end.

(** lines 103-178; [ffaa] is the second coordinate of the drawn line (the filtered anomaly).  An empty
    table has no row 0 (line 119). *)
Definition line_pick {A : Type} (view : A -> row) (full : list A) (ffaa : list R) (minx maxy : R)
    (passes : list (list event * str)) (d : dir A) (answer : str) : option (res (dir A)) :=
  let table := trim full in
  let rows := map view table in
  match rows with
  | [] => Some (Raise IndexError)
  | r0 :: _ =>
      match pick_loop (Env (combine (map tsec rows) (trim ffaa)) rows) minx maxy (lon_new r0, lat_new r0) passes with
      | None => None
      | Some (Raise er) => Some (Raise er)
      | Some (Ok segs) => Some (Ok (write_segments table 0 segs (prepare d answer)))
      end
  end.
