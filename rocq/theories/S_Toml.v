(** Specification for C92 and C93: ini files that load as TOML, line by line, and what they mean.  Only the types of strings,
    values and documents are shared with the model. *)
From Coq Require Import ZArith QArith Ascii String Bool List.
From Verif Require Import M_Str S_Str M_Toml.
Import ListNotations.
Open Scope Z_scope.

(** Value of a digit string, of a sign, of an exponent. *)
Fixpoint decimal (s : str) : Z :=
  match s with
  | [] => 0
  | c :: t => (Z.of_nat (nat_of_ascii c) - 48) * 10 ^ Z.of_nat (List.length t) + decimal t
  end.
Inductive sign_value : str -> Z -> Prop :=
| sv_none : sign_value [] 1
| sv_plus : sign_value ["+"%char] 1
| sv_minus : sign_value ["-"%char] (-1).
Inductive exp_value : str -> Z -> Prop :=
| ev : forall e sg z d, (e = "e"%char \/ e = "E"%char) -> sign_value sg z -> digits d -> exp_value (e :: sg ++ d) (z * decimal d).

(** TOML integers have no leading zero. *)
Definition no_leading_zero (i : str) : Prop := digits i /\ (i = lit "0" \/ forall r, i <> "0"%char :: r).
(** TOML numbers: integers, and floats with digits on both sides of the point. *)
Inductive numeral : str -> tval -> Prop :=
| nu_int : forall sg z i, sign_value sg z -> no_leading_zero i -> numeral (sg ++ i) (TInt (z * decimal i))
| nu_exp : forall sg z i x e, sign_value sg z -> no_leading_zero i -> exp_value x e ->
    numeral (sg ++ i ++ x) (TFloat (FDec (z * decimal i) e))
| nu_frac : forall sg z i f, sign_value sg z -> no_leading_zero i -> digits f ->
    numeral (sg ++ i ++ "."%char :: f) (TFloat (FDec (z * decimal (i ++ f)) (- Z.of_nat (List.length f))))
| nu_both : forall sg z i f x e, sign_value sg z -> no_leading_zero i -> digits f -> exp_value x e ->
    numeral (sg ++ i ++ "."%char :: f ++ x) (TFloat (FDec (z * decimal (i ++ f)) (e - Z.of_nat (List.length f)))).

Definition control (c : ascii) : Prop := (nat_of_ascii c < 32 /\ nat_of_ascii c <> 9 \/ nat_of_ascii c = 127)%nat.
Definition blanks (s : str) : Prop := Forall (fun c => c = " "%char) s.
(** Characters a quoted text may contain as they stand. *)
Definition plain_text (s : str) : Prop := Forall (fun c => c <> dquote /\ c <> "\"%char /\ ~ control c) s.
Definition key_char (c : ascii) : Prop :=
  In c (lit "ABCDEFGHIJKLMNOPQRSTUVWXYZabcdefghijklmnopqrstuvwxyz0123456789_-").
Definition bare_key (k : str) : Prop := k <> [] /\ Forall key_char k.
(** What may follow a value or header: blanks and a comment. *)
Definition tail (s : str) : Prop :=
  exists b, blanks b /\ (s = b \/ exists c, s = b ++ "#"%char :: c /\ Forall (fun x => ~ control x) c).

(** Text without white space at its ends that is none of true, false, a quoted text or a number. *)
Definition bare_text (v : str) : Prop :=
  trimmed v v /\ v <> lit "true" /\ v <> lit "false" /\ ~ float_literal v /\
  Forall (fun c => c <> "="%char /\ c <> "#"%char) v /\ plain_text v.
Inductive ini_value : str -> tval -> Prop :=
| iv_true : ini_value (lit "true") (TBool true)
| iv_false : ini_value (lit "false") (TBool false)
| iv_number : forall s v, numeral s v -> ini_value s v
| iv_inf : forall sg z, sign_value sg z -> ini_value (sg ++ lit "inf") (TFloat (FInf (z <? 0)))
| iv_nan : forall sg z, sign_value sg z -> ini_value (sg ++ lit "nan") (TFloat FNan)
| iv_quoted : forall s, plain_text s -> ini_value (dquote :: s ++ [dquote]) (TStr s)
| iv_bare : forall s, bare_text s -> ini_value s (TStr s).

(** Texts that float() reads and TOML does not: leading zeros, a point without digits on one side, other spellings of inf and nan. *)
Inductive rejected_number : str -> Prop :=
| rn_zero : forall sg d u, sign_opt sg -> digit d -> number ("0"%char :: d :: u) -> rejected_number (sg ++ "0"%char :: d :: u)
| rn_point : forall sg i x, sign_opt sg -> digits i -> exponent_opt x -> rejected_number (sg ++ i ++ "."%char :: x)
| rn_frac : forall sg f x, sign_opt sg -> digits f -> exponent_opt x -> rejected_number (sg ++ "."%char :: f ++ x)
| rn_special : forall sg u, sign_opt sg -> special u -> u <> lit "inf" -> u <> lit "nan" -> rejected_number (sg ++ u).
Inductive rejected_entry : str -> Prop :=
| re_intro : forall a k b c s t, blanks a -> bare_key k -> blanks b -> blanks c -> rejected_number s -> tail t ->
    rejected_entry (a ++ k ++ b ++ "="%char :: c ++ s ++ t).

Inductive header : str -> str -> Prop :=
| hd_intro : forall a b k t, blanks a -> blanks b -> bare_key k -> tail t -> header ("["%char :: a ++ k ++ b ++ "]"%char :: t) k.
Inductive entry : str -> str -> tval -> Prop :=
| en_plain : forall a k b c s t v, blanks a -> bare_key k -> blanks b -> blanks c -> ini_value s v -> tail t ->
    entry (a ++ k ++ b ++ "="%char :: c ++ s ++ t) k v
| en_talker : forall ln k v, entry ln k v -> ~ In "$"%char ln -> entry ("$"%char :: ln) k v.
Inductive ignored : str -> Prop :=
| ig_empty : ignored []
| ig_comment : forall c, Forall (fun x => ~ control x) c -> ignored ("#"%char :: c).

(** Entries in order; tables in order. *)
Inductive entries : list str -> table -> Prop :=
| es_nil : entries [] []
| es_skip : forall ln ls t, ignored ln -> entries ls t -> entries (ln :: ls) t
| es_cons : forall ln ls k v t, entry ln k v -> entries ls t -> entries (ln :: ls) ((k, v) :: t).
Inductive sections : list str -> list (str * table) -> Prop :=
| ss_nil : sections [] []
| ss_cons : forall ln n ls t rest ts, header ln n -> entries ls t -> sections rest ts ->
    sections (ln :: ls ++ rest) ((n, t) :: ts).
Definition ini_doc (ls : list str) (d : doc) : Prop :=
  exists a b, ls = a ++ b /\ entries a (top d) /\ sections b (tables d).
(** No key or section occurs twice. *)
Definition distinct (d : doc) : Prop :=
  NoDup (map fst (top d) ++ map fst (tables d)) /\ Forall (fun s => NoDup (map fst (snd s))) (tables d).

(** C93: [q] is the finite number stored under [k] in section Sensor. *)
Inductive number_of : tval -> Q -> Prop :=
| no_int : forall z, number_of (TInt z) (inject_Z z)
| no_dec : forall m e, number_of (TFloat (FDec m e)) (inject_Z m * Qpower (10 # 1) e)%Q.
Definition setting (d : doc) (k : string) (q : Q) : Prop :=
  exists t v, In (lit "Sensor", t) (tables d) /\ In (lit k, v) t /\ number_of v q.
(** Column [y] is column [x] calibrated: gain per full scale [full], and zero. *)
Definition calibrated_by (full : Q) (g z : Q) (x y : list Q) : Prop := Forall2 (fun a b => b * full == a * g + z * full)%Q x y.
