(** Specification for properties C60-C65: tables of fixes made from navigation files. *)
From Coq Require Import ZArith Reals Ascii String Bool List Sorted.
From Verif Require Import M_Py M_Str M_Nmea S_Str S_Nmea.
Import ListNotations.
Open Scope Z_scope.

(** [i] is the first index at which [t] stands in [l]. *)
Definition first_index (l : list Z) (t : Z) (i : nat) : Prop :=
  nth_error l i = Some t /\ forall j, (j < i)%nat -> nth_error l j <> Some t.

(** What a file holds: times, longitudes, latitudes, in file order. *)
Record file_data : Type := mk_data { times : list Z; lons : list (option R); lats : list (option R) }.
Definition well_formed (f : file_data) : Prop :=
  times f <> [] /\ List.length (lons f) = List.length (times f) /\ List.length (lats f) = List.length (times f).

(** Decimation by [d]: every [d]-th element from the first one (from the last one for negative [d]);
    all of them for 0. *)
Definition taken {A : Type} (d : Z) (l l' : list A) : Prop :=
  (d = 0 -> l' = l) /\
  (0 < d -> forall j, nth_error l' j = nth_error l (j * Z.to_nat d)) /\
  (d < 0 -> forall j, nth_error l' j = nth_error (rev l) (j * Z.to_nat (- d))).
Definition keeps (d : Z) (f : file_data) (t : Z) : Prop := exists l, taken d (times f) l /\ In t l.

(** The position of time [t]: from the first file that keeps [t], its first row with this time. *)
Inductive first_seen (d : Z) (files : list file_data) (t : Z) (lon lat : option R) : Prop :=
| seen_intro : forall before f after i, files = before ++ f :: after ->
    Forall (fun g => ~ keeps d g t) before -> keeps d f t -> first_index (times f) t i ->
    nth_error (lons f) i = Some lon -> nth_error (lats f) i = Some lat -> first_seen d files t lon lat.

(** Consecutive known longitudes differ by at most a degree. *)
Definition smooth (l : list (option R)) : Prop :=
  forall i a b, nth_error l i = Some (Some a) -> nth_error l (S i) = Some (Some b) -> (Rabs (b - a) <= 1)%R.

(** The talkers of database.toml. *)
Inductive default_talker : str -> str -> Prop :=
| dt_gp : forall s, In s [lit "Atlantis"; lit "NBP"; lit "Revelle"; lit "Sikuliaq"] -> default_talker s (lit "GPGGA")
| dt_in : forall s, In s [lit "Thompson"; lit "Ride"; lit "Langseth"] -> default_talker s (lit "INGGA").
Definition known_ship (s : str) : Prop := exists t, default_talker s t.

(** The formats of the ships: positions as in C54-C55, times as in C57 and C59. *)
Inductive ship_format (talker : str) (allnav : list str) (ts : list Z) : str -> Prop :=
| sf_Atlantis : forall sub, selected (occurs talker) allnav sub -> Forall2 (stamped Atlantis_date talker) sub ts ->
    ship_format talker allnav ts (lit "Atlantis")
| sf_NBP : forall sub, selected (occurs talker) allnav sub -> Forall2 (stamped NBP_date talker) sub ts ->
    ship_format talker allnav ts (lit "NBP")
| sf_Thompson : forall sub, selected (occurs talker) allnav sub -> Forall2 (stamped_seconds Thompson_date talker) sub ts ->
    ship_format talker allnav ts (lit "Thompson")
| sf_Langseth : forall sub, selected (occurs talker) allnav sub -> Forall2 (seapath_line_stamp talker) sub ts ->
    ship_format talker allnav ts (lit "Langseth")
| sf_Revelle : forall blocks tail, allnav = revelle_text blocks tail -> revelle_layout talker blocks tail ->
    Forall2 (block_read talker) blocks (map Some ts) -> ship_format talker allnav ts (lit "Revelle")
| sf_posix : forall sub, talker = lit "INGGA" -> selected (occurs talker) allnav sub -> Forall2 posix_stamp sub ts ->
    ship_format talker allnav ts (lit "Ride")
| sf_iso : forall sub ship, talker = lit "GPGGA" -> In ship [lit "Ride"; lit "Sikuliaq"] ->
    selected (occurs talker) allnav sub -> Forall2 iso_stamp sub ts -> ship_format talker allnav ts ship.

(** A navigation file of the ship. *)
Inductive nav_file (ship talker : str) (allnav : list str) (f : file_data) : Prop :=
| nf_intro : forall sub rows, usable talker -> selected (occurs talker) allnav sub -> sub <> [] ->
    Forall2 (fix_read talker) sub rows -> lons f = map fst rows -> lats f = map snd rows ->
    ship_format talker allnav (times f) ship -> nav_file ship talker allnav f.

(** The lines of a file, each with its newline (which the last one may lack). *)
Inductive file_lines : str -> list str -> Prop :=
| fl_nil : file_lines [] []
| fl_last : forall l, l <> [] -> ~ In nl l -> file_lines l [l]
| fl_line : forall l t ls, ~ In nl l -> file_lines t ls -> file_lines (l ++ nl :: t) ((l ++ [nl]) :: ls).

(** The talker that is looked for. *)
Definition talker_for (ship : str) (talker : option str) (tk : str) : Prop :=
  match talker with Some t => tk = t | None => default_talker ship tk end.

(** A path leads to a file that holds [f]: according to the user's reader, or in the format of the ship. *)
Definition provides (fsys : str -> option str) (ship tk : str)
  (fn : option (list str -> str -> res (list (option R) * list (option R) * timest))) (p : str) (f : file_data) : Prop :=
  exists text lines, fsys p = Some text /\ file_lines text lines /\
    match fn with
    | Some g => well_formed f /\ g lines tk = Ok (lons f, lats f, Stamps (map Some (times f)))
    | None => nav_file ship tk lines f
    end.

(** ** Longitudes *)
(** the number of known elements that satisfy [P] *)
Inductive tally (P : R -> Prop) : list (option R) -> nat -> Prop :=
| ta_nil : tally P [] 0
| ta_yes : forall x l n, P x -> tally P l n -> tally P (Some x :: l) (S n)
| ta_no : forall x l n, ~ P x -> tally P l n -> tally P (Some x :: l) n
| ta_nan : forall l n, tally P l n -> tally P (None :: l) n.

(** one longitude moved: negative ones to the east of 180 ... *)
Inductive moved_east : option R -> option R -> Prop :=
| me_nan : moved_east None None
| me_same : forall v, (0 <= v)%R -> moved_east (Some v) (Some v)
| me_move : forall v w k, (v < 0)%R -> (180 <= w < 360)%R -> (w = v + 180 * IZR k)%R -> moved_east (Some v) (Some w).
(** ... or positive ones to the west of -180 *)
Inductive moved_west : option R -> option R -> Prop :=
| mw_nan : moved_west None None
| mw_same : forall v, (v <= 0)%R -> moved_west (Some v) (Some v)
| mw_move : forall v w k, (0 < v)%R -> (-360 < w <= -180)%R -> (w = v + 180 * IZR k)%R -> moved_west (Some v) (Some w).
Inductive moved (l l' : list (option R)) : Prop :=
| mv_east : forall n p, tally (fun v => v < 0)%R l n -> tally (fun v => 0 < v)%R l p -> (n < p)%nat -> Forall2 moved_east l l' -> moved l l'
| mv_west : forall n p, tally (fun v => v < 0)%R l n -> tally (fun v => 0 < v)%R l p -> (p <= n)%nat -> Forall2 moved_west l l' -> moved l l'.

(** a jump of more than a degree between element [i] and the next one; all the jumps in order *)
Definition jump (l : list (option R)) (i : nat) : Prop :=
  exists a b, nth_error l i = Some (Some a) /\ nth_error l (S i) = Some (Some b) /\ (1 < Rabs (b - a))%R.
Definition all_jumps (l : list (option R)) (js : list nat) : Prop :=
  StronglySorted lt js /\ forall i, In i js <-> jump l i.

Definition mid (a b : option R) : option R :=
  match a, b with Some x, Some y => Some ((x + y) / 2)%R | _, _ => None end.
(** the jumps taken two by two: the element after the first of each two is the mean of its neighbours;
    the others stay *)
Definition bridged (l : list (option R)) (pairs : list (nat * nat)) (l' : list (option R)) : Prop :=
  List.length l' = List.length l /\
  (forall i j, In (i, j) pairs -> (S (S i) < List.length l)%nat /\ nth_error l' (S i) = Some (mid (nth i l None) (nth (S (S i)) l None))) /\
  (forall k, (forall i j, In (i, j) pairs -> k <> S i) -> nth_error l' k = nth_error l k).
Inductive date_line_cleaned (l l' : list (option R)) : Prop :=
| dl_odd : forall js n, moved l l' -> all_jumps l' js -> List.length js = (2 * n + 1)%nat -> date_line_cleaned l l'
| dl_even : forall m pairs, moved l m -> all_jumps m (flat_map (fun ij => [fst ij; snd ij]) pairs) -> bridged m pairs l' -> date_line_cleaned l l'.

(** [u] (in degrees east, 0 to 360) is reported as a longitude between -180 and 180. *)
Definition reported (u lon : option R) : Prop :=
  match u, lon with
  | Some u, Some v => (0 < u < 360 /\ -180 <= v <= 180 /\ (v = u \/ v = u - 360))%R
  | None, None => True
  | _, _ => False
  end.
