(** Model of example-scripts/dgs_ccp_calc.py 61-146 in sequence: from the files to the fit of the cross-coupling
    coefficients.  [None]: a value needed is NaN, or a text (outside this model). *)
From Coq Require Import ZArith QArith Reals Qreals Ascii String Bool List.
From Verif Require Import M_Py M_Np M_Str M_Cal M_Ini M_ReadNav M_Table M_Dgs M_Corr M_Faa M_Nan M_CC M_Level M_Script.
Import ListNotations.
Open Scope R_scope.

Definition andthen {A B : Type} (x : option (res A)) (f : A -> option (res B)) : option (res B) :=
  match x with None => None | Some (Raise e) => Some (Raise e) | Some (Ok a) => f a end.
Notation "'some' x <- a ; b" := (andthen a (fun x => b)) (at level 200, x pattern, a at level 100, b at level 200).

(** lines 134-136: [dgs_data[c].values], a column of numbers *)
Definition numbers (data : frame) (c : str) : option (res (list R)) :=
  match get_column data c with
  | Raise e => Some (Raise e)
  | Ok col => match mapM reading col with
              | Raise _ => None
              | Ok v => option_map Ok (finite v)
              end
  end.

(** The table of the script after line 131 (all rows), its columns used below, the level error and the table of the fit. *)
Record ccp_state : Type := mk_ccp
  { c_data : frame; c_faa : list R; c_vcc : list R; c_ve : list R; c_al : list R; c_ax : list R; c_level : list R; c_df : cc_df }.

Definition ccp_script (argsort : list Q -> list nat) (fsys : fs) (to_datetime : list cell -> res (list cell)) (ship : str)
  (nav_files dgs_files : list str) (bias sampling : R) : option (res ccp_state) :=
  some nav <- Some (script_nav fsys ship None true nav_files);
  some m <- Some (script_meter argsort (read_dgs_laptop fsys to_datetime dgs_files ship None));
  some a <- Some (script_anomaly nav bias sampling m);
  some tsec <- Some (mapM timestamp (snd (fst m)));
  let data := fst (fst a) in
  match finite (fst (sync nav tsec)), finite (snd (sync nav tsec)), finite (snd (fst a)) with
  | Some lon, Some lat, Some faa =>
      let lat_corr := map (fun l => wgs_grav l + free_air_second_order l 0 false) lat in
      some level <- Some (level_script lon lat lat_corr sampling);
      some vcc <- numbers data (lit "vcc");
      some ve <- numbers data (lit "ve");
      some al <- numbers data (lit "al");
      some ax <- numbers data (lit "ax");
      some df <- Some (ccp_table faa vcc ve al ax level);
      Some (Ok (mk_ccp data faa vcc ve al ax level df))
  | _, _, _ => None
  end.
(** lines 143-146 *)
Definition ccp_anomaly (r : ccp_state) (params : list R) : list R := faa_ccp params (c_faa r) (c_vcc r) (c_ve r) (c_al r) (c_ax r).
