(** Property C109: the package's database. *)
From Coq Require Import ZArith QArith Reals Ascii String Bool Lia List.
From Verif Require Import M_Py M_Str L_Str M_Ini M_Toml P_Toml M_Nmea M_ReadNav S_ReadNav L_ReadNav M_Table M_Bgm S_Bgm L_Bgm M_DbText M_Db S_Db.
Import ListNotations.
Open Scope Z_scope.

Definition database : ddoc := Eval vm_compute in match db_load database_toml with Some (Ok d) => d | _ => mk_ddoc [] [] end.
Lemma database_loads : db_load database_toml = Some (Ok database).
Proof. vm_compute. reflexivity. Qed.

(** C109: the database file loads, and with it the readers are those of C54-C71 ... *)
Theorem C109_read_nav : forall fsys ship paths sampling talker fn d,
  read_nav_db database_toml fsys ship paths sampling talker fn d = Some (read_nav fsys ship paths sampling talker fn d).
Proof.
  intros. unfold read_nav_db, opened. rewrite database_loads.
  replace (info_table database "nav-talkers") with (Some (@Ok dtable (map (fun kt => (fst kt, DVal (TStr (snd kt)))) nav_talkers))) by (vm_compute; reflexivity).
  replace (typed text_of (map (fun kt => (fst kt, DVal (TStr (snd kt)))) nav_talkers)) with (Some nav_talkers) by (vm_compute; reflexivity). reflexivity.
Qed.
Print Assumptions C109_read_nav.
Theorem C109_read_bgm : forall fsys td paths ship scale fn,
  read_bgm_raw_db database_toml fsys td paths ship scale fn = Some (read_bgm_raw fsys td paths ship scale fn).
Proof.
  intros. unfold read_bgm_raw_db, opened. rewrite database_loads.
  assert (E : exists t, info_table database "BGM-scale" = Some (Ok t) /\ typed decimal_of t = Some bgm_scale) by (eexists; split; vm_compute; reflexivity).
  destruct E as [t [-> ->]]. reflexivity.
Qed.
Print Assumptions C109_read_bgm.

(** ... the calibration factor is the full scale of 24 bits, and the biases are these: every ship of C62 has a DGS bias, and those
    with a scale of C66 have a BGM bias; the others have the number -999 instead. *)
Definition ship_list : list str := [lit "Atlantis"; lit "Thompson"; lit "Revelle"; lit "NBP"; lit "Ride"; lit "Langseth"; lit "Sikuliaq"].
Theorem C109_constants : exists d, db_load database_toml = Some (Ok d) /\
  (exists f, calibration_factor d = Some (Ok f) /\ (f == inject_Z (2 ^ 23 - 1))%Q) /\
  (forall ship g b, ship_bias ship g b -> exists x y, bias_value d ship (lit "dgs") = Some (Ok x) /\ bias_value d ship (lit "bgm") = Some (Ok y) /\
    (x == g)%Q /\ (y == match b with Some q => q | None => no_meter end)%Q) /\
  (forall ship, (exists x, bias_value d ship (lit "dgs") = Some (Ok x)) <-> known_ship ship) /\
  (forall ship g b, ship_bias ship g b -> (b <> None <-> exists s, meter_scale ship s)) /\
  (forall ship meter, ~ known_ship ship -> bias_value d ship meter = Some (Raise KeyError)).
Proof.
  assert (K : forall ship, known_ship ship <-> In ship ship_list).
  { intros ship. split.
    - intros [t Ht]. destruct Ht as [s Hs|s Hs]; cbn [In] in Hs; decompose [or] Hs; try contradiction; subst; cbn [In ship_list]; tauto.
    - intros H. cbn [In ship_list] in H. decompose [or] H; try contradiction; subst;
        first [exists (lit "GPGGA"); apply dt_gp; cbn [In]; tauto | exists (lit "INGGA"); apply dt_in; cbn [In]; tauto]. }
  assert (N : forall ship meter, ~ known_ship ship -> bias_value database ship meter = Some (Raise KeyError)).
  { intros ship meter H. unfold bias_value.
    assert (E : exists t, info_table database "bias-values" = Some (Ok t) /\ map fst t = ship_list) by (eexists; split; vm_compute; reflexivity).
    destruct E as [t [-> Et]]. replace (assoc ship t) with (@None dval); [reflexivity|]. symmetry.
    assert (Hn : ~ In ship (map fst t)) by (rewrite Et; intros X; apply H, K, X). clear -Hn. induction t as [|[k v] t IH]; [reflexivity|]. cbn [assoc].
    destruct (str_eqb ship k) eqn:E; [apply str_eqb_eq in E; subst; exfalso; apply Hn; left; reflexivity|]. apply IH. intros X. apply Hn. right. exact X. }
  exists database. split; [exact database_loads|]. split; [eexists; split; vm_compute; reflexivity|].
  split; [intros ship g b H; destruct H; do 2 eexists; (split; [vm_compute; reflexivity|]); (split; [vm_compute; reflexivity|]); split; vm_compute; reflexivity|].
  split; [|split; [|exact N]].
  - intros ship. rewrite K. split.
    + intros [x Hx]. destruct (in_dec (list_eq_dec ascii_dec) ship ship_list) as [H|H]; [exact H|]. exfalso. rewrite N in Hx; [discriminate|]. rewrite K. exact H.
    + intros H. cbn [In ship_list] in H. decompose [or] H; try contradiction; subst; eexists; vm_compute; reflexivity.
  - intros ship g b H. destruct (meter_scale_assoc ship) as [A _]. split.
    + intros Hb. destruct H; try (exfalso; apply Hb; reflexivity); eexists; constructor.
    + intros [s Hs]. destruct (A s Hs) as [s' [E _]]. destruct H; (discriminate || (cbn in E; discriminate E)).
Qed.
Print Assumptions C109_constants.

(** Another database: naming a ship and its talker there is not enough to read its files without a function of the user, ... *)
Theorem C109_new_ship : forall text d t talkers fsys ship tk p text' paths sampling talker dec, db_load text = Some (Ok d) ->
  info_table d "nav-talkers" = Some (Ok t) -> typed text_of t = Some talkers -> In (ship, tk) talkers -> ~ known_ship ship -> fsys p = Some text' ->
  read_nav_db text fsys ship (p :: paths) sampling talker None dec = Some (Ok Refused).
Proof.
  intros text d t talkers fsys ship tk p text' paths sampling talker dec Hl Ht Hy Hi Hk Hp. unfold read_nav_db, opened. rewrite Hl, Ht, Hy. unfold read_nav_from.
  assert (E : exists u, assoc ship talkers = Some u).
  { clear -Hi. induction talkers as [|[k v] l IH]; [destruct Hi|]. cbn [assoc]. destruct (str_eqb ship k) eqn:Ek; [eexists; reflexivity|].
    destruct Hi as [Hi|Hi]; [|exact (IH Hi)]. injection Hi as -> ->. apply str_eqb_neq in Ek. destruct (Ek eq_refl). }
  destruct E as [u ->].
  assert (R : forall l v, ship_reader ship l v = Ok None).
  { intros l v. unfold ship_reader.
    repeat match goal with |- context [str_eqb ship ?x] => let E := fresh in destruct (str_eqb ship x) eqn:E;
      [exfalso; apply Hk; apply str_eqb_eq in E; subst ship; first [exists (lit "GPGGA"); apply dt_gp; cbn [In]; tauto | exists (lit "INGGA"); apply dt_in; cbn [In]; tauto]|] end.
    reflexivity. }
  destruct talker; cbv zeta; cbn [read_files]; rewrite Hp, R; reflexivity.
Qed.
Print Assumptions C109_new_ship.
(** ... an unreadable database makes both readers raise ValueError, and a database without the table KeyError. *)
Lemma literal_exn s : forall e, literal_string s = Raise e -> e = ValueError.
Proof.
  induction s as [|c s IH]; intros e; cbn [literal_string]; [congruence|]. destruct (Ascii.eqb c "'"); [discriminate|]. destruct (is_ctrl c); [congruence|].
  destruct (literal_string s) as [r|e']; cbn [bind]; [discriminate|]. intros H. injection H as ->. exact (IH _ eq_refl).
Qed.
Lemma simple_exn s e : simple_value s = Some (Raise e) -> e = ValueError.
Proof.
  unfold simple_value. destruct s as [|c t]; [apply toml_value_exn|]. destruct (Ascii.eqb c "'"); [|apply toml_value_exn].
  destruct (prefixb _ _); [discriminate|]. destruct (literal_string t) as [r|e'] eqn:E; cbn [bind]; [discriminate|]. intros H. injection H as ->. exact (literal_exn _ _ E).
Qed.
Lemma inline_key_exn s e : inline_key s = Some (Raise e) -> e = ValueError.
Proof.
  unfold inline_key. destruct s as [|c t]; [apply toml_key_exn|]. destruct (Ascii.eqb c "'"); [|apply toml_key_exn].
  destruct (literal_string t) as [[k r]|e'] eqn:E; [|intros H; injection H as ->; exact (literal_exn _ _ E)].
  destruct (skip_ws r) as [|p r']; [discriminate|]. destruct (Ascii.eqb p "."); discriminate.
Qed.
Lemma inline_exn n : forall s acc e, inline_table n s acc = Some (Raise e) -> e = ValueError.
Proof.
  induction n as [|n IH]; intros s acc e; cbn [inline_table]; [congruence|].
  destruct (inline_key s) as [[[k r]|e']|] eqn:E; [| |discriminate]; [|intros H; injection H as ->; exact (inline_key_exn _ _ E)].
  destruct r as [|x r']; [congruence|]. destruct (Ascii.eqb x "="); [|congruence].
  destruct (simple_value (skip_ws r')) as [[[v r'']|e']|] eqn:Ev; [| |discriminate]; [|intros H; injection H as ->; exact (simple_exn _ _ Ev)].
  destruct (assoc k acc); [congruence|]. destruct (skip_ws r'') as [|c q]; [congruence|]. destruct (Ascii.eqb c "}"); [discriminate|].
  destruct (Ascii.eqb c ","); [apply IH|congruence].
Qed.
Lemma db_value_exn s e : db_value s = Some (Raise e) -> e = ValueError.
Proof.
  unfold db_value. destruct s as [|c t]; [congruence|]. destruct (Ascii.eqb c "{").
  - destruct (skip_ws t) as [|d q]; [congruence|]. destruct (Ascii.eqb d "}"); [discriminate|].
    destruct (inline_table _ _ _) as [[[tb r]|e']|] eqn:E; [discriminate| |discriminate]. intros H. injection H as ->. exact (inline_exn _ _ _ _ E).
  - destruct (simple_value _) as [[[v r]|e']|] eqn:E; [discriminate| |discriminate]. intros H. injection H as ->. exact (simple_exn _ _ E).
Qed.
Lemma db_line_exn s e : db_line s = Some (Raise e) -> e = ValueError.
Proof.
  unfold db_line.
  assert (O : match toml_line s with None => None | Some (Raise e) => Some (Raise e) | Some (Ok SNone) => Some (Ok DNone) | Some (Ok (STable k)) => Some (Ok (DTable k))
    | Some (Ok (SKey k v)) => Some (Ok (DKey k (DVal v))) end = Some (Raise e) -> e = ValueError).
  { destruct (toml_line s) as [[[|k|k v]|e']|] eqn:E; try discriminate. intros H. injection H as ->. exact (toml_line_exn _ _ E). }
  destruct (skip_ws s) as [|c t]; [exact O|]. destruct (_ || _); [exact O|]. clear O.
  destruct (toml_key _) as [[[k r]|e']|] eqn:E; [| |discriminate]; [|intros H; injection H as ->; exact (toml_key_exn _ _ E)].
  destruct r as [|x r']; [congruence|]. destruct (Ascii.eqb x "="); [|congruence].
  destruct (db_value _) as [[[v r'']|e']|] eqn:Ev; [| |discriminate]; [|intros H; injection H as ->; exact (db_value_exn _ _ Ev)].
  destruct (end_of_line r'') as [u|e'] eqn:El; cbn [bind]; [discriminate|]. intros H. injection H as ->. exact (end_of_line_exn _ _ El).
Qed.
Lemma db_lines_exn ls : forall tp ts e, db_lines ls tp ts = Some (Raise e) -> e = ValueError.
Proof.
  induction ls as [|ln ls IH]; intros tp ts e; cbn [db_lines]; [discriminate|].
  destruct (db_line ln) as [[[|k|k v]|e']|] eqn:E; [apply IH| | | |discriminate]; [| |intros H; injection H as ->; exact (db_line_exn _ _ E)].
  - destruct (assoc k tp); [congruence|]. destruct (assoc k ts); [congruence|]. apply IH.
  - destruct ts as [|[n t] ts]; [destruct (assoc k tp)|destruct (assoc k t)]; try congruence; apply IH.
Qed.
Theorem C109_errors : forall text fsys ship, 
  (forall e, db_load text = Some (Raise e) -> e = ValueError /\
    (forall paths sampling talker fn dec, read_nav_db text fsys ship paths sampling talker fn dec = Some (Raise ValueError)) /\
    forall td paths scale fn, read_bgm_raw_db text fsys td paths ship scale fn = Some (Raise ValueError)) /\
  (forall d, db_load text = Some (Ok d) ->
    (~ In (lit "nav-talkers") (map fst (dtop d) ++ map fst (dtables d)) ->
      forall paths sampling talker fn dec, read_nav_db text fsys ship paths sampling talker fn dec = Some (Raise KeyError)) /\
    (~ In (lit "BGM-scale") (map fst (dtop d) ++ map fst (dtables d)) ->
      forall td paths scale fn, read_bgm_raw_db text fsys td paths ship scale fn = Some (Raise KeyError))).
Proof.
  assert (A : forall (X : Type) k (l : list (str * X)), ~ In k (map fst l) -> assoc k l = None).
  { intros X k l. induction l as [|[k' v] l IH]; intros H; [reflexivity|]. cbn [assoc]. destruct (str_eqb k k') eqn:E.
    - exfalso. apply H. left. apply str_eqb_eq in E. symmetry. exact E.
    - apply IH. intros Y. apply H. right. exact Y. }
  intros text fsys ship. split.
  - intros e He. pose proof (db_lines_exn _ _ _ _ He) as ->. split; [reflexivity|]. split; intros; unfold read_nav_db, read_bgm_raw_db, opened; rewrite He; reflexivity.
  - intros d Hd. split; intros Hn; intros; unfold read_nav_db, read_bgm_raw_db, opened; rewrite Hd; unfold info_table;
      rewrite (A _ _ (dtop d)) by (intros X; apply Hn; apply in_or_app; left; exact X); rewrite (A _ _ (dtables d)) by (intros X; apply Hn; apply in_or_app; right; exact X); reflexivity.
Qed.
Print Assumptions C109_errors.

(** A database with another ship, a broken one and an empty one. *)
Definition nl_ : string := String nl EmptyString.
Definition other_db : str := lit ("# edited" ++ nl_ ++ "[nav-talkers] # talkers" ++ nl_ ++ "Kairei = 'GNGGA'" ++ nl_ ++ "  Ride = ""INGGA"" # as before" ++ nl_ ++ nl_
  ++ "[BGM-scale]" ++ nl_ ++ "Kairei = 5.000_1" ++ nl_ ++ "[x]" ++ nl_ ++ "y = { a = 1, 'b c' = 'it''s' }").
Definition other_db2 : str := lit ("[nav-talkers]" ++ nl_ ++ "Kairei = 'GNGGA'" ++ nl_ ++ "[BGM-scale]" ++ nl_ ++ "Kairei = 5.000_1" ++ nl_ ++ "[x]" ++ nl_ ++ "y = { a = 1, 'b c' = 'it is' } # z").
Example C109_case_other : forall paths, db_load other_db = Some (Raise ValueError) /\
  read_nav_db other_db2 (fun _ => Some []) (lit "Kairei") (lit "f" :: paths) 1 None None 0 = Some (Ok Refused) /\
  read_nav_db other_db2 (fun _ => None) (lit "Kairei") (lit "f" :: paths) 1 None None 0 = Some (Raise FileNotFoundError) /\
  read_nav_db [] (fun _ => None) (lit "Ride") paths 1 None None 0 = Some (Raise KeyError) /\
  (exists d, db_load other_db2 = Some (Ok d) /\ info_table d "x" = Some (Ok [(lit "y", DTab [(lit "a", TInt 1); (lit "b c", TStr (lit "it is"))])])).
Proof. intros paths. repeat split; try reflexivity. eexists. split; vm_compute; reflexivity. Qed.
