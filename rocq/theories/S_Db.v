(** Specification for property C109: the constants of the package's database. *)
From Coq Require Import ZArith QArith Ascii String List.
From Verif Require Import M_Str.
Import ListNotations.
Open Scope Z_scope.

(** Biases in mGal: of the DGS meter, and of the BGM meter if the ship has one. *)
Inductive ship_bias : str -> Q -> option Q -> Prop :=
| sb_Atlantis : ship_bias (lit "Atlantis") (969751259 # 1000) (Some (85558065 # 100))
| sb_Thompson : ship_bias (lit "Thompson") (969492789 # 1000) (Some (8554898 # 10))
| sb_Revelle : ship_bias (lit "Revelle") (9688886465 # 10000) (Some (85524081987 # 100000))
| sb_NBP : ship_bias (lit "NBP") (9686342514 # 10000) None
| sb_Ride : ship_bias (lit "Ride") (9688957718 # 10000) None
| sb_Langseth : ship_bias (lit "Langseth") (969376125 # 1000) (Some (8549744 # 10))
| sb_Sikuliaq : ship_bias (lit "Sikuliaq") (9695388152 # 10000) None.
(** the mark for "no meter" *)
Definition no_meter : Q := -999 # 1.
