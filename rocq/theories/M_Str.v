(** Python [str] operations used by shipgrav/io.py and shipgrav/utils.py.
    A string is a list of 8-bit characters (code points below 256); text files are given
    after universal-newline translation. *)
From Coq Require Import List ZArith QArith Ascii String Bool.
From Verif Require Import M_Py.
Import ListNotations.
Open Scope Z_scope.

Definition str : Type := list ascii.

(** Literal strings. *)
Definition lit (s : string) : str := list_ascii_of_string s.

Definition nl : ascii := "010"%char.
Definition tab : ascii := "009"%char.
Definition dquote : ascii := "034"%char.

Fixpoint str_eqb (a b : str) : bool :=
  match a, b with
  | [], [] => true
  | x :: a', y :: b' => Ascii.eqb x y && str_eqb a' b'
  | _, _ => false
  end.

(** [s.startswith(p)] *)
Fixpoint prefixb (p s : str) : bool :=
  match p, s with
  | [], _ => true
  | _ :: _, [] => false
  | x :: p', y :: s' => Ascii.eqb x y && prefixb p' s'
  end.

(** [sub in s] *)
Fixpoint containsb (sub s : str) : bool :=
  prefixb sub s || match s with [] => false | _ :: t => containsb sub t end.

(** [s.split(sep)] for a non-empty separator: scan left to right; [skip] counts the
    characters of a separator still to be passed over, [cur] is the current part reversed. *)
Fixpoint split_go (sep s : str) (skip : nat) (cur : str) : list str :=
  match s with
  | [] => [rev cur]
  | c :: t =>
      match skip with
      | S k => split_go sep t k cur
      | O => if prefixb sep s then rev cur :: split_go sep t (List.length sep - 1) []
             else split_go sep t O (c :: cur)
      end
  end.
Definition split (sep s : str) : list str := split_go sep s 0 [].

(** [sep.join(parts)] *)
Fixpoint join (sep : str) (parts : list str) : str :=
  match parts with
  | [] => []
  | [p] => p
  | p :: rest => p ++ sep ++ join sep rest
  end.

(** [re.sub(old, new, s)] for a literal pattern: non-overlapping matches from the left. *)
Definition sub_lit (old new s : str) : str := join new (split old s).

(** Python's white space below 256. *)
Definition is_space (c : ascii) : bool :=
  let n := N_of_ascii c in
  ((9 <=? n) && (n <=? 13) || (28 <=? n) && (n <=? 32) || (n =? 133) || (n =? 160))%N.

Fixpoint drop_while (f : ascii -> bool) (s : str) : str :=
  match s with
  | [] => []
  | c :: t => if f c then drop_while f t else s
  end.

Definition lstrip_by (f : ascii -> bool) (s : str) : str := drop_while f s.
Definition rstrip_by (f : ascii -> bool) (s : str) : str := rev (drop_while f (rev s)).
Definition strip_by (f : ascii -> bool) (s : str) : str := rstrip_by f (lstrip_by f s).

(** [s.strip()], [s.lstrip()], [s.rstrip()] *)
Definition lstrip : str -> str := lstrip_by is_space.
Definition rstrip : str -> str := rstrip_by is_space.
Definition strip : str -> str := strip_by is_space.

(** membership in a character set (argument of [rstrip('ini')] and the like) *)
Definition in_set (cs : str) (c : ascii) : bool := existsb (Ascii.eqb c) cs.

(** Decimal digits. *)
Definition is_digit (c : ascii) : bool :=
  let n := N_of_ascii c in ((48 <=? n) && (n <=? 57))%N.
Definition digit_val (c : ascii) : Z := Z.of_N (N_of_ascii c) - 48.

(** value of a digit string, most significant first *)
Definition digits_val (s : str) : Z := fold_left (fun a c => 10 * a + digit_val c) s 0.

Fixpoint span (f : ascii -> bool) (s : str) : str * str :=
  match s with
  | [] => ([], [])
  | c :: t => if f c then let '(a, b) := span f t in (c :: a, b) else ([], s)
  end.

(** Underscores are allowed by [int()] and [float()] only between two digits; [prev] tells
    whether the previous character is a digit. *)
Fixpoint us_ok (prev : bool) (s : str) : bool :=
  match s with
  | [] => true
  | c :: t =>
      if Ascii.eqb c "_" then
        prev && (match t with d :: _ => is_digit d | [] => false end) && us_ok false t
      else us_ok (is_digit c) t
  end.
Definition remove_char (x : ascii) (s : str) : str := filter (fun c => negb (Ascii.eqb c x)) s.

(** Optional sign: (is negative, rest). *)
Definition take_sign (s : str) : bool * str :=
  match s with
  | c :: t => if Ascii.eqb c "+" then (false, t) else if Ascii.eqb c "-" then (true, t) else (false, s)
  | [] => (false, [])
  end.

Definition signed (neg : bool) (z : Z) : Z := if neg then - z else z.

(** [int(s)], base 10. *)
Definition py_int (s : str) : res Z :=
  let s := strip s in
  if negb (us_ok false s) then Raise ValueError else
  let s := remove_char "_" s in
  let '(neg, d) := take_sign s in
  match d with
  | [] => Raise ValueError
  | _ => if forallb is_digit d then Ok (signed neg (digits_val d)) else Raise ValueError
  end.

(** Result of [float(s)]: an exact decimal m * 10^e, or a special value. *)
Inductive fval : Type := FDec (m : Z) (e : Z) | FInf (neg : bool) | FNan.

Definition lower (c : ascii) : ascii :=
  let n := N_of_ascii c in
  if ((65 <=? n) && (n <=? 90))%N then ascii_of_N (n + 32) else c.

(** Unsigned decimal literal with optional fraction and exponent. *)
Definition parse_dec (neg : bool) (s : str) : res fval :=
  let '(i, r) := span is_digit s in
  let '(f, r) := match r with
                 | c :: r' => if Ascii.eqb c "." then span is_digit r' else ([], r)
                 | [] => ([], [])
                 end in
  match i ++ f with
  | [] => Raise ValueError
  | _ =>
      let m := signed neg (digits_val (i ++ f)) in
      let e := - Z.of_nat (List.length f) in
      match r with
      | [] => Ok (FDec m e)
      | c :: r' =>
          if Ascii.eqb c "e" || Ascii.eqb c "E" then
            let '(eneg, d) := take_sign r' in
            match d with
            | [] => Raise ValueError
            | _ => if forallb is_digit d then Ok (FDec m (e + signed eneg (digits_val d)))
                   else Raise ValueError
            end
          else Raise ValueError
      end
  end.

(** [float(s)]. *)
Definition py_float (s : str) : res fval :=
  let s := strip s in
  if negb (us_ok false s) then Raise ValueError else
  let s := remove_char "_" s in
  let '(neg, d) := take_sign s in
  let l := map lower d in
  if str_eqb l (lit "inf") || str_eqb l (lit "infinity") then Ok (FInf neg)
  else if str_eqb l (lit "nan") then Ok FNan
  else parse_dec neg d.

(** Exact value of a decimal as a rational. *)
Definition dec_Q (m e : Z) : Q := (inject_Z m * Qpower (10 # 1) e)%Q.

(** Lines of a file as delivered by [readlines()] or file iteration: each keeps its newline,
    the last may have none. *)
Fixpoint readlines_go (s cur : str) : list str :=
  match s with
  | [] => match cur with [] => [] | _ => [rev cur] end
  | c :: t => if Ascii.eqb c nl then rev (c :: cur) :: readlines_go t []
              else readlines_go t (c :: cur)
  end.
Definition readlines (s : str) : list str := readlines_go s [].
