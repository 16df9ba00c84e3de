(** Specification for properties C72 and C73: a feed in a file of many feeds. *)
From Coq Require Import ZArith QArith Ascii String Bool Sorted List.
From Verif Require Import M_Py M_Str M_Table M_Other S_Str S_Cal S_Nmea S_ReadNav S_Table S_Bgm S_Dgs.
Import ListNotations.
Open Scope Z_scope.

(** the name of the feed, given with or without the dollar sign *)
Inductive feed_name : str -> str -> Prop :=
| fn_dollar : forall tag, feed_name (lit "$" ++ tag) tag
| fn_plain : forall tag, ~ starts_with (lit "$") tag -> feed_name tag tag.
(** the parts of a text between occurrences of [sep], taken from the left *)
Inductive pieces (sep : str) : str -> list str -> Prop :=
| pi_none : forall s, ~ occurs sep s -> pieces sep s [s]
| pi_more : forall a b l, none_before sep (a ++ sep ++ b) (List.length a) -> pieces sep b l -> pieces sep (a ++ sep ++ b) (a :: l).
Definition right_stripped (s t : str) : Prop := exists w, s = t ++ w /\ Forall space w /\ forall c r, t = r ++ [c] -> ~ space c.
Definition comma_trimmed (s t : str) : Prop :=
  exists a b, s = a ++ t ++ b /\ Forall (eq ","%char) a /\ Forall (eq ","%char) b /\
    (forall c r, t = c :: r -> c <> ","%char) /\ (forall c r, t = r ++ [c] -> c <> ","%char).
(** the lines with the tag, the last line of the file not counted *)
Definition tagged (tag data : str) (kept : list str) : Prop :=
  exists front last stripped, file_lines data (front ++ [last]) /\ Forall2 right_stripped front stripped /\ selected (occurs tag) stripped kept.
(** what stands before the tag, and the fields after it *)
Definition feed_row (tag : str) (ln : str) (r : str * list str) : Prop :=
  exists post more t, pieces (lit "$" ++ tag) ln (fst r :: post :: more) /\ comma_trimmed post t /\ fields_of "," t (snd r).
Inductive feed_cell : str -> cell -> Prop :=
| fc_empty : feed_cell [] NaN
| fc_number : forall s q, s <> [] -> number_value s q -> feed_cell s (Num q)
| fc_text : forall s, s <> [] -> ~ a_number s -> feed_cell s (Txt s).
(** column names of a template such as "$TAG,{a},{b}" *)
Definition template_names (template : str) (names : list str) : Prop :=
  exists t h, selected (fun c => c <> "{"%char /\ c <> "}"%char) template t /\ fields_of "," t (h :: names).
(** no row is longer than the names and one is as long *)
Definition fits (names : list str) (rows : list (list str)) : Prop :=
  Forall (fun r => (List.length r <= List.length names)%nat) rows /\ (rows = [] \/ exists r, In r rows /\ List.length r = List.length names).
Definition feed_table (names : list str) (rows : list (list str)) (f : frame) : Prop :=
  Forall2 (fun (c : str * nat) (col : str * list cell) => fst col = fst c /\
    Forall2 (fun r x => (exists s, nth_error r (snd c) = Some s /\ feed_cell s x) \/ ((List.length r <= snd c)%nat /\ x = NaN)) rows (snd col))
    (combine names (seq 0 (List.length names))) f.
(** descriptions of the columns that have one *)
Inductive infos {I : Type} (descs : list (str * I)) : list str -> list (str * I) -> Prop :=
| in_nil : infos descs [] []
| in_some : forall c k i cs l, before_first ":" c k -> In (k, i) descs -> infos descs cs l -> infos descs (c :: cs) ((c, i) :: l)
| in_none : forall c k cs l, before_first ":" c k -> ~ In k (map fst descs) -> infos descs cs l -> infos descs (c :: cs) l.
(** keys of a dictionary *)
Definition dictionary {A : Type} (l : list (str * A)) : Prop := NoDup (map fst l).

Inductive feed_result {I : Type} (specs : feed_specs I) (data tag : str) : frame -> list (str * I) -> Prop :=
| fr_intro : forall template names kept rows base mystery df info,
    In (tag, template) (formats specs) -> template_names template names ->
    tagged tag data kept -> Forall2 (feed_row tag) kept rows ->
    fits names (map snd rows) -> feed_table names (map snd rows) base ->
    Forall2 feed_cell (map fst rows) mystery -> with_column (lit "mystery") mystery base df ->
    infos (descriptions specs) names info -> feed_result specs data tag df info.

Definition plain_ascii (s : str) : Prop := Forall (fun c => (nat_of_ascii c < 128)%nat) s.
Inductive feed_error {I : Type} (specs : feed_specs I) (data tag : str) : exn -> Prop :=
| fe_format : ~ In tag (map fst (formats specs)) -> feed_error specs data tag AssertionError
| fe_empty : In tag (map fst (formats specs)) -> data = [] -> feed_error specs data tag ValueError
| fe_tag : In tag (map fst (formats specs)) -> ~ plain_ascii tag -> feed_error specs data tag ValueError
| fe_absent : In tag (map fst (formats specs)) -> data <> [] -> plain_ascii tag -> ~ occurs tag data -> feed_error specs data tag AssertionError
| fe_decode : In tag (map fst (formats specs)) -> occurs tag data -> ~ plain_ascii data -> feed_error specs data tag ValueError
| fe_dollar : forall kept ln, In tag (map fst (formats specs)) -> plain_ascii tag -> plain_ascii data -> tagged tag data kept ->
    In ln kept -> ~ occurs (lit "$" ++ tag) ln -> feed_error specs data tag IndexError
| fe_width : forall template names kept rows, In (tag, template) (formats specs) -> plain_ascii tag -> plain_ascii data -> template_names template names ->
    tagged tag data kept -> Forall2 (feed_row tag) kept rows -> ~ fits names (map snd rows) -> feed_error specs data tag ValueError.
