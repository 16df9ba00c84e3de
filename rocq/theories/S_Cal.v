(** Specification of the Gregorian calendar by counting days one at a time. *)
From Coq Require Import ZArith Bool.
Open Scope Z_scope.

Definition leap (y : Z) : Prop := (y mod 4 = 0 /\ y mod 100 <> 0) \/ y mod 400 = 0.

(** [month_days y m n]: month [m] of year [y] has [n] days (thirty days hath September...). *)
Inductive month_days (y : Z) : Z -> Z -> Prop :=
| md_30 : forall m, m = 4 \/ m = 6 \/ m = 9 \/ m = 11 -> month_days y m 30
| md_31 : forall m, m = 1 \/ m = 3 \/ m = 5 \/ m = 7 \/ m = 8 \/ m = 10 \/ m = 12 -> month_days y m 31
| md_feb : ~ leap y -> month_days y 2 28
| md_feb_leap : leap y -> month_days y 2 29.

Definition date : Set := (Z * Z * Z)%type.

Definition valid_date (t : date) : Prop :=
  let '(y, m, d) := t in exists n, month_days y m n /\ 1 <= d <= n.

(** The day after. *)
Inductive next_day : date -> date -> Prop :=
| nd_day : forall y m d n, month_days y m n -> 1 <= d < n -> next_day (y, m, d) (y, m, d + 1)
| nd_month : forall y m n, month_days y m n -> m < 12 -> next_day (y, m, n) (y, m + 1, 1)
| nd_year : forall y, next_day (y, 12, 31) (y + 1, 1, 1).

(** [t] is [n] days after [s]. *)
Inductive days_after (s : date) : nat -> date -> Prop :=
| da_0 : days_after s 0 s
| da_S : forall n t u, days_after s n t -> next_day t u -> days_after s (S n) u.

(** [t] is day number [n] counted from 1970-01-01 (day 0). *)
Definition day_number (t : date) (n : Z) : Prop :=
  (exists k, days_after (1970, 1, 1) k t /\ n = Z.of_nat k) \/
  (exists k, days_after t k (1970, 1, 1) /\ n = - Z.of_nat k).

(** Microseconds since 1970-01-01T00:00Z of a UTC date and time of day. *)
Definition instant (t : date) (h mi s us : Z) (i : Z) : Prop :=
  exists n, day_number t n /\ i = ((n * 24 + h) * 60 + mi) * 60 * 1000000 + s * 1000000 + us.
