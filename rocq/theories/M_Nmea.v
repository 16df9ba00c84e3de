(** Model of the navigation line parsers, /repo/shipgrav/io.py 150-347.
    Text numbers are exact decimals (no float rounding): [str(float(s))] is right for up to 15
    significant digits.  Infinite coordinates (the text "inf") are merged with NaN ([None]).
    Timestamps are instants (microseconds since 1970-01-01T00:00Z) of the aware datetimes built. *)
From Coq Require Import ZArith Reals Ascii String Bool List.
From Verif Require Import M_Py M_Str M_Cal.
Import ListNotations.
Open Scope Z_scope.

(** ** Regular expressions
    Patterns made of literal characters and groups [\d{n}] (captured). *)
Inductive pat : Type := PLit (c : ascii) | PDig (n : nat).
Definition plit (s : string) : list pat := map PLit (list_ascii_of_string s).

(** [re.match]: the captured groups and the rest of the text. *)
Fixpoint pmatch (p : list pat) (s : str) : option (list str * str) :=
  match p with
  | [] => Some ([], s)
  | PLit c :: p' =>
      match s with
      | x :: t => if Ascii.eqb c x then pmatch p' t else None
      | [] => None
      end
  | PDig n :: p' =>
      let d := firstn n s in
      if (List.length d =? n)%nat && forallb is_digit d then
        match pmatch p' (skipn n s) with
        | Some (g, r) => Some (d :: g, r)
        | None => None
        end
      else None
  end.

(** [re.findall(p, s)[0]]: the match that starts first. *)
Fixpoint search {A : Type} (m : str -> option A) (s : str) : res A :=
  match m s with
  | Some a => Ok a
  | None => match s with [] => Raise IndexError | _ :: t => search m t end
  end.

(** ** Lines and fields *)
(** [s.split(sep)] of any separator *)
Definition py_split (sep s : str) : res (list str) :=
  match sep with [] => Raise ValueError | _ => Ok (split sep s) end.

(** io.py 153-154 and the same lines of the other functions *)
Definition talker_lines (talker : str) (allnav : list str) : list str := filter (containsb talker) allnav.

(** io.py 164-166, 333-335 *)
Definition post_fields (talker ln : str) : res (list str) :=
  do parts <- py_split talker ln;
  let post := split (lit ",") (lstrip (last parts [])) in
  Ok (match post with [] :: r => r | _ => post end).

(** ** Coordinates *)
Definition fval_R (v : fval) : option R :=
  match v with FDec m e => Some (IZR m * powerRZ 10 e)%R | _ => None end.

Definition degmin (d : Z) (m : fval) (neg : bool) : option R :=
  option_map (fun r => let v := (IZR d + r / 60)%R in if neg then (- v)%R else v) (fval_R m).

(** io.py 336-345: (lon, lat) of one line *)
Definition nav_coord (post : list str) : res (option R * option R) :=
  do p1 <- getr post 1;
  do nocoord <- (if str_eqb p1 [] then Ok true else do p3 <- getr post 3; Ok (str_eqb p3 []));
  if nocoord then Ok (None, None) else
  do latd <- py_int (firstn 2 p1);
  do latm <- py_float (skipn 2 p1);
  do p2 <- getr post 2;
  do p3 <- getr post 3;
  do lond <- py_int (firstn 3 p3);
  do lonm <- py_float (skipn 3 p3);
  do p4 <- getr post 4;
  Ok (degmin lond lonm (str_eqb p4 (lit "W")), degmin latd latm (str_eqb p2 (lit "S"))).

(** io.py 324-347 *)
Definition navcoords (allnav : list str) (talker : str) : res (list (option R) * list (option R)) :=
  do c <- mapM (fun ln => do post <- post_fields talker ln; nav_coord post) (talker_lines talker allnav);
  Ok (map fst c, map snd c).

(** ** Clock *)
(** a number without its trailing zeros *)
Fixpoint strip0 (fuel : nat) (r : Z) : Z :=
  match fuel with
  | O => r
  | S f => if r mod 10 =? 0 then strip0 f (r / 10) else r
  end.

(** io.py 170-171, from [str(sec0)] (CPython [repr]: positional for 1e-4 <= |x| < 1e16 or x = 0):
    seconds, and the digits after the point times 1e4 ([msec] goes to an int64 array). *)
Definition split_seconds (v : fval) : res (Z * Z) :=
  match v with
  | FDec m e =>
      let k := Z.to_nat (- e) in
      let a := Z.abs m * 10 ^ Z.max 0 e in
      let q := a / 10 ^ Z.of_nat k in
      let r := a mod 10 ^ Z.of_nat k in
      if (10 ^ 16 <=? q) || (negb (r =? 0) && (a * 10000 <? 10 ^ Z.of_nat k)) then Raise ValueError else
      let msec := (if r =? 0 then 0 else strip0 k r) * 10000 in
      if 2 ^ 63 <=? msec then Raise OverflowError else Ok (signed (m <? 0) q, msec)
  | _ => Raise ValueError
  end.

(** io.py 163-171: hour, minute, second, "msec" of one line *)
Definition clock_line (talker ln : str) : res (Z * Z * Z * Z) :=
  do post <- post_fields talker ln;
  do p0 <- getr post 0;
  do hour <- py_int (firstn 2 p0);
  do mint <- py_int (firstn 2 (skipn 2 p0));
  do sec0 <- py_float (skipn 4 p0);
  do sm <- split_seconds sec0;
  Ok (hour, mint, fst sm, snd sm).

(** io.py 150-173 *)
Definition clock_time (allnav : list str) (talker : str) : res (list (Z * Z * Z * Z)) :=
  mapM (clock_line talker) (talker_lines talker allnav).

(** ** Datetimes *)
Definition c_int (z : Z) : bool := (- 2 ^ 31 <=? z) && (z <? 2 ^ 31).
(** [datetime(y, m, d, h, mi, s, us, tzinfo=timezone.utc)] *)
Definition dt_us (y m d h mi s us : Z) : res Z :=
  if forallb c_int [y; m; d; h; mi; s; us] then
    do t <- datetime_new y m d h mi s us (Some 0); Ok (utc_us t 0)
  else Raise OverflowError.

(** [datetime.strptime] of year, day of year ([%j]) and clock, with the ranges of its regular
    expressions; the day is counted from January 1 (day 366 of a common year is the next January 1). *)
Definition doy_us (y doy h mi s us : Z) : res Z :=
  if (1 <=? doy) && (doy <=? 366) && (0 <=? h) && (h <=? 23) && (0 <=? mi) && (mi <=? 59) && (0 <=? s) && (s <=? 59)
     && (0 <=? us) && (us <=? 999999) && (1 <=? y) && (y <=? 9999) && (ymd2ord y 1 1 + doy - 1 <=? ymd2ord 9999 12 31)
  then Ok ((((ymd2ord y 1 1 + doy - 1 - epoch_ord) * 24 + h) * 60 + mi) * 60 * us_per_sec + s * us_per_sec + us)
  else Raise ValueError.

(** the captured digits as integers (they are digits, so [int()] does not raise) *)
Definition ints (g : list str) : list Z := map digits_val g.
Definition zth (l : list Z) (n : nat) : Z := nth n l 0.

(** part of the line before the talker: [subnav[i].split(talker)[0]] *)
Definition pre_part (talker ln : str) : res str :=
  do parts <- py_split talker ln; Ok (hd [] parts).

(** clock and date of each talker line, dates by [f] (the loops of io.py 186-194, 208-219, 233-241) *)
Definition dated (allnav : list str) (talker : str) (f : str -> Z * Z * Z * Z -> res Z) : res (list (option Z)) :=
  do clocks <- clock_time allnav talker;
  do t <- mapM (fun lc => do pre <- pre_part talker (fst lc); f pre (snd lc)) (combine (talker_lines talker allnav) clocks);
  Ok (map Some t).

(** io.py 176-195: r'NAV (\d{4})/(\d{2})/(\d{2})' *)
Definition pat_Atlantis : list pat := plit "NAV " ++ [PDig 4] ++ plit "/" ++ [PDig 2] ++ plit "/" ++ [PDig 2].
Definition navdate_Atlantis (allnav : list str) (talker : str) : res (list (option Z)) :=
  dated allnav talker (fun pre c =>
    let '(hour, mint, sec, msec) := c in
    do g <- search (pmatch pat_Atlantis) pre;
    let n := ints (fst g) in
    dt_us (zth n 0) (zth n 1) (zth n 2) hour mint sec msec).

(** io.py 198-220: r'(\d{2})\+(\d{2,3}):.*' (two digits, or three if they come before the colon) *)
Definition match_NBP (s : str) : option (list str * str) :=
  match pmatch ([PDig 2] ++ plit "+" ++ [PDig 3] ++ plit ":") s with
  | Some g => Some g
  | None => pmatch ([PDig 2] ++ plit "+" ++ [PDig 2] ++ plit ":") s
  end.
Definition navdate_NBP (allnav : list str) (talker : str) : res (list (option Z)) :=
  dated allnav talker (fun pre c =>
    let '(hour, mint, sec, msec) := c in
    do g <- search match_NBP pre;
    let n := ints (fst g) in
    doy_us (2000 + zth n 0) (zth n 1) hour mint sec msec).

(** io.py 223-242: r'(\d{2})/(\d{2})/(\d{4}),*', month first; sub-seconds not used *)
Definition pat_Thompson : list pat := [PDig 2] ++ plit "/" ++ [PDig 2] ++ plit "/" ++ [PDig 4].
Definition navdate_Thompson (allnav : list str) (talker : str) : res (list (option Z)) :=
  dated allnav talker (fun pre c =>
    let '(hour, mint, sec, msec) := c in
    do g <- search (pmatch pat_Thompson) pre;
    let n := ints (fst g) in
    dt_us (zth n 2) (zth n 0) (zth n 1) hour mint sec 0).

(** io.py 245-275: the date starts an earlier line *)
Definition pat_Revelle : list pat := [PDig 4] ++ plit "-" ++ [PDig 2] ++ plit "-" ++ [PDig 2].
(** [np.where(inav)[0]] *)
Definition talker_inds (talker : str) (allnav : list str) : list nat :=
  filter (fun i => containsb talker (nth i allnav [])) (seq 0 (List.length allnav)).
(** io.py 265-274: step backwards; no date leaves the entry of [np.empty(N, dtype=datetime)], [None] *)
Fixpoint revelle_back (before : list str) (c : Z * Z * Z * Z) : res (option Z) :=
  match before with
  | [] => Ok None
  | l :: rest =>
      match pmatch pat_Revelle l with
      | Some g =>
          let '(hour, mint, sec, msec) := c in
          let n := ints (fst g) in
          do t <- dt_us (zth n 0) (zth n 1) (zth n 2) hour mint sec msec; Ok (Some t)
      | None => revelle_back rest c
      end
  end.
Definition navdate_Revelle (allnav : list str) (talker : str) : res (list (option Z)) :=
  do clocks <- clock_time allnav talker;
  let inds := talker_inds talker allnav in
  mapM (fun x => let '((lo, i), c) := x in revelle_back (rev (slice allnav lo i)) c)
       (combine (combine (0%nat :: map S inds) inds) clocks).

(** A list of timestamps, or the integer -999. *)
Inductive timest : Type := Sentinel | Stamps (l : list (option Z)).

(** io.py 292: r'(\d+(\.\d* )?) \$INGGA' (without the blank) *)
Definition match_posix (s : str) : option (Z * Z) :=
  let '(i, r) := span is_digit s in
  match i with
  | [] => None
  | _ =>
      let '(f, r) := match r with
                     | c :: t => if Ascii.eqb c "." then span is_digit t else ([], r)
                     | [] => ([], r)
                     end in
      if prefixb (lit " $INGGA") r then Some (digits_val (i ++ f), Z.of_nat (List.length f)) else None
  end.
(** nearest integer of m / 10^k, half to even *)
Definition round_div (m d : Z) : Z :=
  let q := m / d in let r := m mod d in
  if 2 * r <? d then q else if d <? 2 * r then q + 1 else if Z.even q then q else q + 1.
(** [datetime.fromtimestamp(m / 10^k, timezone.utc)] (CPython [_datetimemodule.c] on 64 bit Linux).  After the year 9999:
    [datetime] refuses the year; [gmtime_r] fails if the year minus 1900 is not a C int; the seconds must fit a 64 bit [time_t]. *)
Definition from_posix (m k : Z) : res Z :=
  let us := round_div (m * us_per_sec) (10 ^ k) in
  let sec := us / us_per_sec in
  if us <? (ymd2ord 9999 12 31 + 1 - epoch_ord) * us_per_day then Ok us
  else if sec <? (ymd2ord (2 ^ 31 + 1900) 1 1 - epoch_ord) * 86400 then Raise ValueError
  else if sec <? 2 ^ 63 then Raise OSError
  else Raise OverflowError.

(** io.py 296-298: r'(\d{4})\-(\d{2})\-(\d{2})T(\d{2}):(\d{2}):(\d{2})\.(\d.*?)Z' *)
Definition pat_iso : list pat :=
  [PDig 4] ++ plit "-" ++ [PDig 2] ++ plit "-" ++ [PDig 2] ++ plit "T" ++ [PDig 2] ++ plit ":" ++ [PDig 2] ++ plit ":" ++ [PDig 2] ++ plit ".".
Definition match_iso (s : str) : option (list str * str) :=
  match pmatch pat_iso s with
  | Some (g, d :: r) =>
      if is_digit d then
        let '(f, r) := span (fun c => negb (Ascii.eqb c "Z") && negb (Ascii.eqb c nl)) r in
        match r with
        | z :: _ => if Ascii.eqb z "Z" then Some (g, d :: f) else None
        | [] => None
        end
      else None
  | _ => None
  end.
(** io.py 305: [int(float('.'+f)*1e6)] *)
Definition iso_micro (f : str) : res Z :=
  do v <- py_float ("."%char :: f);
  match v with
  | FDec m e => Ok (m * 10 ^ Z.max 0 (e + 6) / 10 ^ Z.max 0 (- (e + 6)))
  | _ => Raise OverflowError
  end.

(** io.py 290-305: one line *)
Definition ride_line (talker ln : str) : res (option Z) :=
  if str_eqb talker (lit "INGGA") then
    do p <- search match_posix ln; do t <- from_posix (fst p) (snd p); Ok (Some t)
  else if str_eqb talker (lit "GPGGA") then
    do g <- search match_iso ln;
    let n := ints (fst g) in
    do msec <- iso_micro (snd g);
    do t <- dt_us (zth n 0) (zth n 1) (zth n 2) (zth n 3) (zth n 4) (zth n 5) msec; Ok (Some t)
  else Ok None.
(** io.py 278-306 *)
Definition navdate_Ride (allnav : list str) (talker : str) : res timest :=
  match talker_lines talker allnav with
  | [] => Ok Sentinel
  | sub => do t <- mapM (ride_line talker) sub; Ok (Stamps t)
  end.

(** a numeric directive of [strptime] followed by [sep] *)
Definition directive (lo hi : nat) (sep : str) (s : str) : res (str * str) :=
  let '(d, r) := span is_digit s in
  if (lo <=? List.length d)%nat && (List.length d <=? hi)%nat && prefixb sep r then Ok (d, skipn (List.length sep) r)
  else Raise ValueError.
(** [datetime.strptime(s, '%Y:%j:%H:%M:%S.%f')] *)
Definition strptime_Langseth (s : str) : res Z :=
  do y <- directive 4 4 (lit ":") s;
  do j <- directive 1 3 (lit ":") (snd y);
  do h <- directive 1 2 (lit ":") (snd j);
  do mi <- directive 1 2 (lit ":") (snd h);
  do sc <- directive 1 2 (lit ".") (snd mi);
  do f <- directive 1 6 [] (snd sc);
  match snd f with
  | [] => doy_us (digits_val (fst y)) (digits_val (fst j)) (digits_val (fst h)) (digits_val (fst mi)) (digits_val (fst sc))
            (digits_val (fst f) * 10 ^ Z.of_nat (6 - List.length (fst f)))
  | _ => Raise ValueError
  end.
(** io.py 309-321 *)
Definition navdate_Langseth (allnav : list str) (talker : str) : res (list (option Z)) :=
  do t <- mapM (fun ln =>
      do pre <- pre_part talker ln;
      do sea <- getr (split (lit "seapath") pre) 1;
      do date <- getr (split [tab] sea) 1;
      strptime_Langseth date) (talker_lines talker allnav);
  Ok (map Some t).
