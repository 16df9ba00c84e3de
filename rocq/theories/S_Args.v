(** Specification for property C111: which arguments the numerical functions refuse, and with
    which exception. *)
From Coq Require Import List ZArith Reals Arith String.
From Verif Require Import M_Py M_Cal M_Status S_Status.
Import ListNotations.
Open Scope R_scope.

(** crustal_thickness_2D: cut-off wavelengths in the wrong order; otherwise a zero among the
    numbers that are divided by; otherwise the array is not as long as the grid. *)
Definition crust_refuses (n nx ny : nat) (dx rho wlarge wsmall : R) (e : exn) : Prop :=
  (e = AssertionError /\ wlarge <= wsmall) \/
  (e = ZeroDivisionError /\ wsmall < wlarge /\
     (wlarge = 0 \/ wsmall = 0 \/ nx = 0%nat \/ ny = 0%nat \/ rho = 0 \/ dx = 0)) \/
  (e = ValueError /\ wsmall < wlarge /\
     ~ (wlarge = 0 \/ wsmall = 0 \/ nx = 0%nat \/ ny = 0%nat \/ rho = 0 \/ dx = 0) /\ n <> (nx * ny)%nat).

(** The thermal models. *)
Definition halfspace_refuses (z : list R) (rhom rhow : R) (e : exn) : Prop :=
  (e = ZeroDivisionError /\ rhom = rhow) \/ (e = IndexError /\ rhom <> rhow /\ z = []).
Definition Z_halfspace_refuses (Tm rhom rhow : R) (e : exn) : Prop :=
  e = ZeroDivisionError /\ (Tm = 0 \/ rhom = rhow).
Definition plate_refuses (z : list R) (rhom rhow : R) (e : exn) : Prop :=
  (e = IndexError /\ z = []) \/ (e = ZeroDivisionError /\ z <> [] /\ rhom = rhow).
(** The depths searched run from [z0] in steps of [dz], short of [z1]; none of them if [dz] points
    away from [z1]. *)
Definition Z_plate_refuses (z0 z1 dz rhom rhow : R) (e : exn) : Prop :=
  (e = ZeroDivisionError /\ dz = 0) \/
  (e = IndexError /\ dz <> 0 /\ (z1 - z0) / dz <= 0) \/
  (e = ZeroDivisionError /\ dz <> 0 /\ 0 < (z1 - z0) / dz /\ rhom = rhow).

(** Array lengths that do not agree (tide prediction): the positions and times are looked at first,
    then the time zones, then the altitudes. *)
Definition tide_refuses (nlon nlat : nat) (times : list datetime) (nalt : option nat) (e : exn) : Prop :=
  (e = AssertionError /\ ~ (nlon = nlat /\ nlon = List.length times)) \/
  (e = TypeError /\ nlon = nlat /\ nlon = List.length times /\ exists t, In t times /\ utcoffset t = None) \/
  (e = ValueError /\ nlon = nlat /\ nlon = List.length times /\ (forall t, In t times -> utcoffset t <> None) /\
     exists n, nalt = Some n /\ n <> nlon).

Definition eotvos_refuses (nlon nlat nht : nat) (e : exn) : Prop :=
  (e = ValueError /\ ~ (nlon = nlat /\ nht = nlat)) \/
  (e = IndexError /\ nlon = nlat /\ nht = nlat /\ (nlat <= 2)%nat).

Definition velocity_refuses (nlon nlat : nat) (e : exn) : Prop :=
  e = AssertionError /\ ~ (nlon = nlat /\ (11 <= nlon)%nat).

Definition up_refuses (ng nc nl no : nat) (e : exn) : Prop :=
  (e = IndexError /\ ~ (no = nc /\ no = nl)) \/ (e = ValueError /\ no = nc /\ no = nl /\ ng <> nc).

Definition gauss_refuses (n fl : Z) (e : exn) : Prop :=
  (e = AssertionError /\ (n <= fl)%Z) \/
  (e = ZeroDivisionError /\ (fl < n)%Z /\ fl = 0%Z) \/
  (e = IndexError /\ (fl < n)%Z /\ (fl = -1 \/ fl = -2)%Z) \/
  (e = ValueError /\ (fl < n)%Z /\ (fl <= -3)%Z).

(** Odd numbers of points that leave the wavenumbers of an axis one short. *)
Definition short_axis (n : nat) : Prop := exists q, n = (2 * q + 3)%nat.
(** Every row of the grid has [nx] values and there are [ny] rows. *)
Definition full_grid (ny nx : nat) (Z : list (list R)) : Prop :=
  List.length Z = ny /\ forall r, In r Z -> List.length r = nx.
Definition empty_grid (Z : list (list R)) : Prop := forall r, In r Z -> r = [].

Definition folding_refuses (nx ny : nat) (Z : list (list R)) (ifold : bool) (e : exn) : Prop :=
  (e = ValueError /\ (empty_grid Z \/ nx = 0%nat \/ (ifold = false /\ short_axis nx))) \/
  (e = IndexError /\ ~ (empty_grid Z \/ nx = 0%nat \/ (ifold = false /\ short_axis nx)) /\ ifold = false /\ short_axis ny) \/
  (e = ValueError /\ ~ (empty_grid Z \/ nx = 0%nat \/ (ifold = false /\ short_axis nx)) /\
     ~ (ifold = false /\ short_axis ny) /\ ~ full_grid ny nx Z).

(** decode_dgs_status_bits on a table: the column names, and the cells of the column asked for. *)
Definition integer_cells (l : list cell) : Prop := forall c, In c l -> exists z, c = CInt z.
Definition status_refuses (t : table) (key : string) (e : exn) : Prop :=
  (e = KeyError /\ ~ In key (map fst t)) \/
  (e = ValueError /\ exists t1 l t2, t = t1 ++ (key, l) :: t2 /\
     (In key (map fst (t1 ++ t2)) \/ ~ integer_cells l \/
      exists f b, In (f, b) documented /\ In f (map fst t))).

(** What the call leaves: nothing changed unless the reason is a flag column that is there already;
    then the columns of the flags before the first such flag are in, right after the first column. *)
Definition status_leaves (t t' : table) (e : exn) : Prop :=
  t' = t \/
  (e = ValueError /\ exists j c0 rest cols, t = c0 :: rest /\ t' = c0 :: cols ++ rest /\
     map fst cols = map fst (firstn j documented) /\
     (forall f b, In (f, b) (firstn j documented) -> ~ In f (map fst t)) /\
     In (fst (nth j documented (""%string, 0%Z))) (map fst t)).
