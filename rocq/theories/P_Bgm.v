(** Properties C66-C68 (and the BGM part of C71): BGM3 readers. *)
From Coq Require Import ZArith QArith Qabs Ascii String Bool Lia Sorted List.
From Verif Require Import M_Py M_Str M_Cal M_Ini M_Nmea M_ReadNav M_Table M_Bgm S_Str S_Cal S_Nmea S_ReadNav S_Table S_Bgm
  L_Base L_Str L_Cal L_Nmea L_Nav2 L_ReadNav L_Dateline L_Num L_Table L_Bgm.
Import ListNotations.
Open Scope Z_scope.
Local Notation len := List.length.

(** * C66: counts times scale factor, files in order. *)
Theorem C66_files : forall fsys td paths ship scale fn sc fs, keeps_length td -> scale_for ship scale sc -> paths <> [] ->
  Forall2 (serial_table fsys td ship fn) paths fs ->
  exists gs T, read_bgm_raw fsys td paths ship scale fn = Ok (Some T) /\ Forall2 (calibrated sc) fs gs /\ stacked gs T.
Proof.
  intros fsys td paths ship scale fn sc fs Hk Hsc Hn H. destruct (scale_used _ _ _ Hsc) as [s [E Es]].
  destruct (bgm_one_all _ _ _ _ s sc _ _ Hk Es H) as [gs [H1 [H2 H3]]].
  assert (Hg : gs <> []) by (intros ->; inversion H1; subst; congruence).
  destruct (concat_frames_stacked gs Hg H3) as [T [ET HT]]. exists gs, T. split; [|split; assumption].
  rewrite bgm_unfold, E, (collect_ok _ _ _ H1). cbn [bind gathered]. rewrite ET. reflexivity.
Qed.
Print Assumptions C66_files.
(** each row's rgrav is the scale factor times its counts *)
Theorem C66_rgrav : forall fsys td paths ship scale fn sc fs, keeps_length td -> scale_for ship scale sc -> paths <> [] ->
  Forall2 (serial_table fsys td ship fn) paths fs ->
  exists T cs gs, read_bgm_raw fsys td paths ship scale fn = Ok (Some T) /\
    has_column T (lit "counts") cs /\ has_column T (lit "rgrav") gs /\ Forall2 (times_scale sc) cs gs.
Proof.
  intros fsys td paths ship scale fn sc fs Hk Hsc Hn H. destruct (C66_files _ _ _ _ _ _ _ _ Hk Hsc Hn H) as [gs [T [E [Hc Hs]]]].
  assert (Hg : gs <> []).
  { intros ->. inversion Hc; subst. inversion H; subst. congruence. }
  assert (Hf : Forall2 (fun f g => NoDup (map fst f) /\ calibrated sc f g) fs gs).
  { assert (Hf : Forall (fun f => NoDup (map fst f)) fs).
    { clear -H Hk. induction H as [|p f ps fs Hp _ IH]; constructor; [|exact IH]. destruct (serial_table_read _ _ _ _ _ _ Hk Hp) as [_ [[n [Hn _]] _]]. exact Hn. }
    clear -Hc Hf. induction Hc; inversion Hf; subst; constructor; [split; assumption|]. apply IHHc. assumption. }
  assert (Hcol : Forall (fun g => NoDup (map fst g) /\ exists c r, has_column g (lit "counts") c /\ has_column g (lit "rgrav") r /\ Forall2 (times_scale sc) c r) gs).
  { clear -Hf. induction Hf as [|f g fs gs [Hn Hg] _ IH]; constructor; [|exact IH].
    destruct Hg as [counts [grav [H1 [H2 H3]]]]. unfold has_column in *. split; [|exists counts, grav].
    - destruct H3 as [f Hx|a w b Hx]; [rewrite map_app; apply NoDup_snoc; assumption|]. rewrite map_app in *. exact Hn.
    - split; [|split; [|exact H2]].
      + destruct H3 as [f Hx|a w b Hx]; [apply in_or_app; left; exact H1|]. apply in_app_or in H1. apply in_or_app.
        destruct H1 as [H1|[H1|H1]]; [left; exact H1|discriminate|right; right; exact H1].
      + destruct H3; apply in_or_app; right; left; reflexivity. }
  destruct Hs as [Hd Hv].
  assert (Names : forall c, (c = lit "counts" \/ c = lit "rgrav") -> exists v, has_column T c v).
  { intros c Hcn. assert (I : In c (map fst T)).
    { apply (distinct_In _ _ c Hd). destruct gs as [|g gs]; [congruence|]. cbn [map concat]. apply in_or_app. left.
      inversion Hcol as [|? ? [_ [x [r [K1 [K2 _]]]]] _]; subst.
      destruct Hcn as [->| ->]; [exact (in_map fst _ _ K1)|exact (in_map fst _ _ K2)]. }
    apply in_map_iff in I. destruct I as [[c' v] [<- I]]. exists v. exact I. }
  destruct (Names (lit "counts") (or_introl eq_refl)) as [cs Ics]. destruct (Names (lit "rgrav") (or_intror eq_refl)) as [rs Irs].
  exists T, cs, rs. split; [exact E|]. split; [exact Ics|]. split; [exact Irs|].
  destruct (Hv _ _ Ics) as [p1 [-> F1]]. destruct (Hv _ _ Irs) as [p2 [-> F2]]. clear -Hcol F1 F2. revert p2 F2.
  induction F1 as [|g c gs p1 Hc F1 IH]; intros p2 F2; inversion F2 as [|? r ? p2' Hr F2']; subst; [constructor|].
  inversion Hcol as [|? ? [Hn [x [y [K1 [K2 K3]]]]] Hcol']; subst. cbn [concat]. apply Forall2_app; [|apply IH; assumption].
  assert (U : forall k a b, has_column g k a -> has_column g k b -> a = b).
  { intros k a b Ha Hb. pose proof (column_has _ _ _ Hn Ha) as E1. rewrite (column_has _ _ _ Hn Hb) in E1. congruence. }
  destruct Hc as [Hc|[Hc _]]; [|exfalso; apply Hc; exact (in_map fst _ _ K1)].
  destruct Hr as [Hr|[Hr _]]; [|exfalso; apply Hr; exact (in_map fst _ _ K2)].
  rewrite (U _ _ _ Hc K1), (U _ _ _ Hr K2). exact K3.
Qed.
Print Assumptions C66_rgrav.

(** -999 *)
Theorem C66_minus_999 : forall fsys td paths ship scale fn,
  read_bgm_raw fsys td paths ship scale fn = Ok None <->
    (scale = None /\ ~ exists s, meter_scale ship s) \/
    (scale <> None /\ fn = None /\ paths <> [] /\ ~ In ship serial_ships).
Proof.
  intros fsys td paths ship scale fn. rewrite bgm_unfold.
  assert (G : forall r, gathered r = Ok None -> r = None).
  { intros [l|] H; [|reflexivity]. cbn [gathered] in H. destruct (concat_frames l); discriminate. }
  assert (C : forall (reader : str -> res (option frame)) ps, collect reader ps = Ok None -> exists p, In p ps /\ reader p = Ok None).
  { induction ps as [|p ps IH]; [discriminate|]. cbn [collect]. destruct (reader p) as [[f|]|e] eqn:E; cbn [bind].
    - intros H. destruct (collect reader ps) as [[l|]|e]; try discriminate. destruct (IH eq_refl) as [q [H1 H2]]. exists q. split; [right; exact H1|exact H2].
    - intros _. exists p. split; [left; reflexivity|exact E].
    - discriminate. }
  assert (B : forall sc p, bgm_one fsys td ship fn sc p = Ok None -> fn = None /\ ~ In ship serial_ships).
  { intros sc p. unfold bgm_one, bgm_reader. destruct fn as [g|].
    - destruct (g p) as [f|]; cbn [bind]; [|discriminate]. destruct (get_column f counts_name); cbn [bind]; [|discriminate].
      destruct (mapM _ _); discriminate.
    - intros H. split; [reflexivity|]. intros Hs. unfold serial_ships in Hs. cbn [map] in Hs.
      destruct (open_text fsys p) as [t|]; cbn [bind] in H.
      + destruct Hs as [<-|[<-|[<-|[<-|[]]]]];
          repeat match goal with H : context [str_eqb (lit ?a) (lit ?b)] |- _ =>
            let r := eval vm_compute in (str_eqb (lit a) (lit b)) in replace (str_eqb (lit a) (lit b)) with r in H by reflexivity; cbv iota in H end;
          match type of H with context [?f t] => destruct (f t) as [fr|] end || match type of H with context [?f td t] => destruct (f td t) as [fr|] end;
          cbn [bind] in H; try discriminate;
          destruct (get_column fr counts_name); cbn [bind] in H; try discriminate; destruct (mapM _ _); discriminate.
      + destruct Hs as [<-|[<-|[<-|[<-|[]]]]]; discriminate. }
  assert (A : (if fn then False else ~ In ship serial_ships) -> forall sc p, bgm_one fsys td ship fn sc p = Ok None).
  { intros Hs sc p. destruct fn; [contradiction|]. unfold bgm_one, bgm_reader.
    repeat match goal with |- context [str_eqb ship ?x] => let E := fresh in destruct (str_eqb ship x) eqn:E;
      [apply str_eqb_eq in E; exfalso; apply Hs; unfold serial_ships; cbn [map]; rewrite E; cbn [In]; tauto|] end. reflexivity. }
  assert (M : ~ In ship serial_ships -> ~ exists s, meter_scale ship s).
  { intros H [s Hs]. apply H. unfold serial_ships. cbn [map]. destruct Hs; cbn [In]; tauto. }
  assert (Run : forall sc, (do fs <- collect (bgm_one fsys td ship fn sc) paths; gathered fs) = Ok None <-> fn = None /\ paths <> [] /\ ~ In ship serial_ships).
  { intros sc. split.
    - intros H. destruct (collect _ paths) as [r|] eqn:E; cbn [bind] in H; [|discriminate]. apply G in H. subst r.
      destruct (C _ _ E) as [p [Hp Hr]]. destruct (B _ _ Hr) as [H1 H2]. split; [exact H1|]. split; [|exact H2]. intros ->. destruct Hp.
    - intros [-> [Hp Hs]]. destruct paths as [|p ps]; [congruence|]. cbn [collect]. rewrite (A Hs). reflexivity. }
  destruct scale as [s|].
  - rewrite Run. split; [intros [H1 [H2 H3]]; right; repeat split; try assumption; discriminate|].
    intros [[H _]|[_ H]]; [discriminate|exact H].
  - destruct (assoc ship bgm_scale) as [s|] eqn:E.
    + rewrite Run. split.
      * intros [_ [_ H]]. exfalso. apply (M H). destruct (meter_scale_assoc ship) as [_ K].
        destruct (in_dec (list_eq_dec ascii_dec) ship serial_ships) as [I|I]; [contradiction|]. exfalso.
        assert (X : assoc ship bgm_scale = None) by (apply K; apply M; exact I). congruence.
      * intros [[_ H]|[H _]]; [|congruence]. apply (proj2 (meter_scale_assoc ship)) in H. congruence.
    + split; [|reflexivity]. intros _. left. split; [reflexivity|]. apply (proj2 (meter_scale_assoc ship)). exact E.
Qed.
Print Assumptions C66_minus_999.

(** no files *)
Theorem C66_no_files : forall fsys td ship scale fn sc, scale_for ship scale sc -> read_bgm_raw fsys td [] ship scale fn = Raise ValueError.
Proof. intros fsys td ship scale fn sc H. destruct (scale_used _ _ _ H) as [s [E _]]. rewrite bgm_unfold, E. reflexivity. Qed.
Print Assumptions C66_no_files.
(** the first file that cannot be read decides *)
Theorem C66_first_error : forall fsys td before p rest ship scale fn sc fs e, keeps_length td -> scale_for ship scale sc ->
  Forall2 (serial_table fsys td ship fn) before fs -> path_error fsys td ship fn p e ->
  read_bgm_raw fsys td (before ++ p :: rest) ship scale fn = Raise e.
Proof.
  intros fsys td before p rest ship scale fn sc fs e Hk Hsc H He. destruct (scale_used _ _ _ Hsc) as [s [E Es]].
  destruct (bgm_one_all _ _ _ _ s sc _ _ Hk Es H) as [gs [H1 _]]. rewrite bgm_unfold, E.
  rewrite (collect_stop _ before p rest gs (Raise e) H1); [reflexivity|right; eexists; reflexivity|]. apply path_error_read. exact He.
Qed.
Print Assumptions C66_first_error.

(** dates for the cases below: the number of characters *)
Definition td_len (l : list cell) : res (list cell) :=
  mapM (fun c => match c with Txt s => Ok (Time (inject_Z (Z.of_nat (len s)))) | NaN => Ok NaN | _ => Raise TypeError end) l.
Lemma td_len_keeps : keeps_length td_len.
Proof. intros l l' H. apply mapM_Forall2_inv in H. apply Forall2_len in H. lia. Qed.
Definition file_a : str := lit "x 2021/01/02 03:04:05 y 01:25000" ++ [nl] ++ lit "x 2021/01/02 03:04:06 y 01:25002" ++ [nl].
Definition file_b : str := lit "x 2021/01/03 03:04:05.1 y -7".
Definition two_files (p : str) : option str := if str_eqb p (lit "a") then Some file_a else if str_eqb p (lit "b") then Some file_b else None.
Example C66_case : exists T gs ts, read_bgm_raw two_files td_len [lit "b"; lit "a"] (lit "Atlantis") (Some (2 # 1)) None =
  Ok (Some T) /\ T = [(lit "counts", [Num (-7 # 1); Num (25000 # 1); Num (25002 # 1)]); (lit "date_time", ts); (lit "rgrav", gs)] /\
  ts = [Time 21; Time 19; Time 19] /\ Forall2 (fun g z => exists q, g = Num q /\ (q == inject_Z z)%Q) gs [-14; 50000; 50004].
Proof. do 3 eexists. split; [vm_compute; reflexivity|]. split; [reflexivity|]. split; [reflexivity|]. repeat constructor; eexists; (split; [reflexivity|reflexivity]). Qed.
Example C66_case_refused : read_bgm_raw two_files td_len [lit "a"] (lit "Ride") None None = Ok None /\
  read_bgm_raw two_files td_len [lit "a"] (lit "Ride") (Some 1%Q) None = Ok None /\
  read_bgm_raw two_files td_len [lit "a"; lit "c"] (lit "Revelle") (Some 1%Q) None = Raise ValueError /\
  read_bgm_raw two_files td_len [lit "a"; lit "c"] (lit "Atlantis") None None = Raise FileNotFoundError.
Proof. repeat split; vm_compute; reflexivity. Qed.
(** the formats of the other ships *)
Definition file_t : str := lit "2021/01/02,03:04:05,01:25000 00" ++ [nl].
Definition file_r : str := lit "2021-01-02T03:04:05Z 01:25000 00" ++ [nl].
Definition file_l : str := lit "vc01  2021:032:03:04:05.25 01:25000   00 " ++ [nl] ++ [nl].
Definition other_files (p : str) : option str :=
  if str_eqb p (lit "Thompson") then Some file_t else if str_eqb p (lit "Revelle") then Some file_r else if str_eqb p (lit "Langseth") then Some file_l else None.
Example C66_case_formats : forall ship, In ship [lit "Thompson"; lit "Revelle"; lit "Langseth"] ->
  exists T t g, read_bgm_raw other_files td_len [ship] ship None None = Ok (Some T) /\
    has_column T (lit "counts") [Num (25000 # 1)] /\ has_column T (lit "date_time") [t] /\ has_column T (lit "rgrav") [g] /\
    t = (if str_eqb ship (lit "Thompson") then Time 19 else if str_eqb ship (lit "Revelle") then Time 20 else Time (1612148645250000 # 1000000)).
Proof.
  intros ship [<-|[<-|[<-|[]]]]; do 3 eexists; (split; [vm_compute; reflexivity|]);
    (split; [try (left; reflexivity); right; left; reflexivity|]); (split; [try (left; reflexivity); right; left; reflexivity|]);
    (split; [right; right; left; reflexivity|]); reflexivity.
Qed.

(** * C67: spikes. *)
(** At least two one-sample spikes and no other big step: exactly these rows are taken out. *)
Theorem C67_spikes : forall thresh dat n counts ss, table dat n -> has_column dat (lit "counts") counts -> numeric_column counts ->
  ~ In (lit "index") (map fst dat) -> only_spikes thresh counts ss -> (2 <= len ss)%nat ->
  exists g, despike_bgm_serial thresh dat = Ok g /\ despiked ss dat g.
Proof.
  intros thresh dat n counts ss Ht Hc Hn Hi Hs Hl. destruct (big_steps_exist thresh counts Hn) as [js Hj].
  destruct (spikes_in_pairs _ _ _ _ Hs Hj) as [Hp E]. rewrite (despike_meh _ _ _ _ _ Ht Hc Hn Hj).
  pose proof (in_pairs_even _ _ Hp) as El. rewrite map_length in El.
  assert (L : (2 <? len js)%nat = true) by (apply Nat.ltb_lt; lia). rewrite L.
  assert (O : Nat.odd (len js) = false) by (rewrite El; apply odd_double). rewrite O. cbn [orb].
  destruct (pairs_of js O (proj1 Hj)) as [_ K]. destruct (K _ Hp) as [K1 K2]. rewrite K1, K2, E. apply (proj1 (drop_rows_ok dat n ss Ht) Hi).
Qed.
Print Assumptions C67_spikes.
(** What happens in general: up to two big steps, or steps that are not in pairs of neighbours: nothing;
    otherwise the rows between the two steps of a pair are taken out. *)
Theorem C67_exact : forall thresh dat n counts js, table dat n -> has_column dat (lit "counts") counts -> numeric_column counts ->
  big_steps thresh counts js ->
  ((len js <= 2)%nat -> despike_bgm_serial thresh dat = Ok dat) /\
  ((forall ps, ~ in_pairs js ps) -> despike_bgm_serial thresh dat = Ok dat) /\
  (forall ps, in_pairs js ps -> (2 < len js)%nat -> ~ In (lit "index") (map fst dat) ->
     exists g, despike_bgm_serial thresh dat = Ok g /\ despiked (map S ps) dat g).
Proof.
  intros thresh dat n counts js Ht Hc Hn Hj. rewrite (despike_meh _ _ _ _ _ Ht Hc Hn Hj). split; [|split].
  - intros H. assert (L : (2 <? len js)%nat = false) by (apply Nat.ltb_ge; lia). rewrite L. reflexivity.
  - intros H. destruct (2 <? len js)%nat; [|reflexivity]. destruct (Nat.odd (len js)) eqn:O; [reflexivity|]. cbn [orb].
    destruct (existsb _ _) eqn:X; [reflexivity|]. exfalso. destruct (pairs_of js O (proj1 Hj)) as [K _]. destruct (K X) as [ps Hp]. exact (H ps Hp).
  - intros ps Hp Hl Hi. assert (L : (2 <? len js)%nat = true) by (apply Nat.ltb_lt; lia). rewrite L.
    pose proof (in_pairs_even _ _ Hp) as El. assert (O : Nat.odd (len js) = false) by (rewrite El; apply odd_double). rewrite O. cbn [orb].
    destruct (pairs_of js O (proj1 Hj)) as [_ K]. destruct (K _ Hp) as [K1 K2]. rewrite K1, K2. apply (proj1 (drop_rows_ok dat n _ Ht) Hi).
Qed.
Print Assumptions C67_exact.
(** tables with a column 'index' *)
Theorem C67_index_column : forall thresh dat n counts js ps, table dat n -> has_column dat (lit "counts") counts -> numeric_column counts ->
  big_steps thresh counts js -> in_pairs js ps -> (2 < len js)%nat -> In (lit "index") (map fst dat) ->
  (~ In (lit "level_0") (map fst dat) -> exists g, despike_bgm_serial thresh dat = Ok g /\ despiked_as (lit "level_0") (map S ps) dat g) /\
  (In (lit "level_0") (map fst dat) -> despike_bgm_serial thresh dat = Raise ValueError).
Proof.
  intros thresh dat n counts js ps Ht Hc Hn Hj Hp Hl Hi. rewrite (despike_meh _ _ _ _ _ Ht Hc Hn Hj).
  assert (L : (2 <? len js)%nat = true) by (apply Nat.ltb_lt; lia). rewrite L.
  pose proof (in_pairs_even _ _ Hp) as El. assert (O : Nat.odd (len js) = false) by (rewrite El; apply odd_double). rewrite O. cbn [orb].
  destruct (pairs_of js O (proj1 Hj)) as [_ K]. destruct (K _ Hp) as [K1 K2]. rewrite K1, K2.
  destruct (drop_rows_ok dat n (map S ps) Ht) as [_ [D1 D2]]. split; [apply D1; exact Hi|apply D2; exact Hi].
Qed.
Print Assumptions C67_index_column.
(** the result is determined by what was taken out *)
Theorem C67_unique : forall bad f g g', despiked bad f g -> despiked bad f g' -> g = g'.
Proof.
  intros bad f g g' [n [idx [cols [Ht [-> [Hr Hc]]]]]] [n' [idx' [cols' [Ht' [-> [Hr' Hc']]]]]].
  assert (n' = n).
  { destruct Ht as [_ [Hf Ht]]. destruct Ht' as [_ [_ Ht']]. destruct f as [|c f]; [congruence|]. inversion Ht; subst. inversion Ht'; subst. reflexivity. }
  subst n'. rewrite (rows_removed_fun _ _ _ _ _ _ Hr' Hr). f_equal. clear -Hc Hc'. revert cols' Hc'.
  induction Hc as [|[a x] [b y] f cols [H1 H2] _ IH]; intros cols' Hc'; inversion Hc' as [|? [b' y'] ? cols'' [H1' H2'] Hc'']; subst; [reflexivity|].
  cbn [fst snd] in *. rewrite (rows_removed_fun _ _ _ _ _ _ H2 H2'), (IH _ Hc''). congruence.
Qed.
Print Assumptions C67_unique.
(** no counts, or texts among them *)
Theorem C67_bad_counts : forall thresh dat,
  (~ In (lit "counts") (map fst dat) -> despike_bgm_serial thresh dat = Raise AttributeError) /\
  (forall n a b s more, table dat n -> has_column dat (lit "counts") (a :: b :: more) -> In (Txt s) (a :: b :: more) ->
     despike_bgm_serial thresh dat = Raise TypeError).
Proof.
  intros thresh dat. split.
  - intros H. unfold despike_bgm_serial, counts_name. rewrite (proj2 (column_none _ _) H). reflexivity.
  - intros n a b s more Ht Hc Hs. unfold despike_bgm_serial, counts_name. rewrite (column_has _ _ _ (proj1 Ht) Hc). cbn [bind].
    assert (E : forall x l, In (Txt s) (x :: l) -> l <> [] -> mapM (exceeds thresh) (combine (x :: l) l) = Raise TypeError).
    { assert (B : forall p e, exceeds thresh p = Raise e -> e = TypeError) by (intros [[?| |?|?] [?| |?|?]] e K; cbn in K; congruence).
      intros x l. revert x. induction l as [|y l IH]; intros x H Hl; [congruence|]. change (combine (x :: y :: l) (y :: l)) with ((x, y) :: combine (y :: l) l). cbn [mapM].
      destruct (exceeds thresh (x, y)) as [r|e] eqn:Er; cbn [bind]; [|rewrite (B _ _ Er); reflexivity].
      destruct l as [|z l].
      - exfalso. destruct H as [->|[->|[]]]; [destruct y; discriminate|destruct x; discriminate].
      - rewrite (IH y); [reflexivity| |discriminate]. destruct H as [->|H]; [exfalso; destruct y; discriminate|exact H]. }
    cbn [tl]. rewrite E; [reflexivity|exact Hs|discriminate].
Qed.
Print Assumptions C67_bad_counts.
Definition spiky (l : list Z) : frame := [(lit "counts", count_column l); (lit "t", map (fun i => Num (inject_Z (Z.of_nat i))) (seq 10 (len l)))].
Example C67_case : despike_bgm_serial 8000 (spiky [25000; 40000; 25001; 25002; 1000; 25003]) =
  Ok [(lit "index", map (fun i => Num (inject_Z i)) [0; 2; 3; 5]); (lit "counts", count_column [25000; 25001; 25002; 25003]);
      (lit "t", map (fun i => Num (inject_Z i)) [10; 12; 13; 15])].
Proof. reflexivity. Qed.
Example C67_case_unpaired : despike_bgm_serial 8000 (spiky [25000; 40000; 25001; 40000]) = Ok (spiky [25000; 40000; 25001; 40000]) /\
  despike_bgm_serial 8000 (spiky [0; 9000; 9001; 0; 9000; 0]) = Ok (spiky [0; 9000; 9001; 0; 9000; 0]).
Proof. split; reflexivity. Qed.

(** * C68: a single spike. *)
Theorem C68_refuted : exists thresh dat n counts s, table dat n /\ has_column dat (lit "counts") counts /\ numeric_column counts /\
  ~ In (lit "index") (map fst dat) /\ only_spikes thresh counts [s] /\ ~ exists g, despike_bgm_serial thresh dat = Ok g /\ despiked [s] dat g.
Proof.
  exists 8000%Q, (spiky [0; 9000; 0]), 3%nat, (count_column [0; 9000; 0]), 1%nat.
  split; [|split; [|split; [|split; [|split]]]].
  - split; [|split; [discriminate|repeat constructor]]. cbn [map fst spiky]. constructor; [intros [H|[]]; discriminate|]. constructor; [intros []|constructor].
  - left. reflexivity.
  - apply count_numeric.
  - cbn [map fst spiky]. intros [H|[H|[]]]; discriminate.
  - split; [constructor; constructor|]. split; [constructor; [lia|constructor]|]. intros i. split.
    + intros [a [b [H1 [H2 H3]]]]. exists 1%nat. split; [left; reflexivity|]. destruct i as [|[|i]]; [left; reflexivity|right; reflexivity|].
      cbn in H2. destruct i; discriminate.
    + intros [s [[<-|[]] [H|H]]]; [injection H as ->|subst i]; do 2 eexists; (split; [reflexivity|]); (split; [reflexivity|]); reflexivity.
  - intros [g [Hg [n [idx [cols [_ [-> _]]]]]]]. vm_compute in Hg. congruence.
Qed.
Print Assumptions C68_refuted.
(** A single spike is always kept. *)
Theorem C68_kept : forall thresh dat n counts s, table dat n -> has_column dat (lit "counts") counts -> numeric_column counts ->
  only_spikes thresh counts [s] -> despike_bgm_serial thresh dat = Ok dat.
Proof.
  intros thresh dat n counts s Ht Hc Hn Hs. destruct (big_steps_exist thresh counts Hn) as [js Hj].
  destruct (spikes_in_pairs _ _ _ _ Hs Hj) as [Hp _]. apply (proj1 (C67_exact _ _ _ _ _ Ht Hc Hn Hj)).
  rewrite (in_pairs_even _ _ Hp). reflexivity.
Qed.
Print Assumptions C68_kept.
Example C68_case : despike_bgm_serial 8000 (spiky [25000; 40000; 25001; 25002]) = Ok (spiky [25000; 40000; 25001; 25002]).
Proof. reflexivity. Qed.

(** * C71, RGS files. *)
Theorem C71_rgs_minus_999 : forall fsys td paths ship, read_bgm_rgs fsys td paths ship = Ok None <-> ~ In ship rgs_ships.
Proof.
  intros fsys td paths ship. unfold read_bgm_rgs.
  assert (H : In ship rgs_ships <-> has [lit "Atlantis"; lit "NBP"] ship = true) by (rewrite has_spec; reflexivity).
  rewrite H. destruct (has _ ship); cbn [negb].
  - split; [|intros K; exfalso; apply K; reflexivity]. intros K. exfalso.
    match type of K with bind (collect ?r _) _ = _ => assert (C : forall ps, collect r ps <> Ok None) end.
    { induction ps as [|p ps IH]; [discriminate|]. cbn [collect]. destruct (open_text fsys p) as [t|]; cbn [bind]; [|discriminate].
      cbv zeta. destruct (check_columns _ _) as [u|]; cbn [bind]; [|discriminate]. destruct (date_time _ _ _); cbn [bind]; [|discriminate].
      destruct (collect _ ps) as [[l|]|]; cbn [bind option_map]; try discriminate. congruence. }
    destruct (collect _ paths) as [[l|]|] eqn:E; cbn [bind gathered] in K; try discriminate; [destruct (concat_frames l); discriminate|exact (C _ E)].
  - split; [intros _; discriminate|reflexivity].
Qed.
Print Assumptions C71_rgs_minus_999.
Theorem C71_rgs_files : forall fsys td paths ship data, keeps_length td -> In ship rgs_ships -> paths <> [] ->
  Forall2 (fun p rt => rgs_rows fsys td p (fst rt) (snd rt)) paths data ->
  exists gs T, read_bgm_rgs fsys td paths ship = Ok (Some T) /\ Forall2 (fun rt g => rgs_frame (fst rt) (snd rt) g) data gs /\ stacked gs T.
Proof.
  intros fsys td paths ship data Hk Hs Hn H. unfold read_bgm_rgs.
  assert (E : has [lit "Atlantis"; lit "NBP"] ship = true) by (apply has_spec; exact Hs). rewrite E. cbn [negb].
  match goal with |- context [collect ?r paths] => assert (C : exists gs, collect r paths = Ok (Some gs) /\
    Forall2 (fun rt g => rgs_frame (fst rt) (snd rt) g) data gs /\ Forall (fun g => exists n, table g n) gs) end.
  { clear Hn. induction H as [|p [rows ts] paths data Hp _ [gs [E1 [E2 E3]]]]; [exists []; repeat split; constructor|].
    destruct Hp as [text [stamps [H1 [H2 [H3 [H4 H5]]]]]]. cbn [fst snd] in *. apply csv_rows_file in H2.
    cbn [collect]. unfold open_text at 1. rewrite H1. cbn [bind]. cbv zeta. rewrite H2, (check_columns_ok _ _ H3). cbn [bind].
    rewrite (stamps_time _ _ _ _ _ H4), H5. cbn [bind]. rewrite E1. cbn [bind option_map]. eexists. split; [reflexivity|]. split; (constructor; [|assumption]).
    - eexists. split; [apply csv_frame_table|reflexivity].
    - exists (len rows). split; [|split; [discriminate|]].
      + cbn [map fst csv_frame app]. repeat constructor; cbn [In]; intros K; repeat (destruct K as [K|K]; [discriminate|]); exact K.
      + apply Hk in H5. rewrite (stamps_length _ _ _ _ H4) in H5. cbn [csv_frame map app fst snd].
        repeat constructor; cbn [snd]; try (rewrite infer_length; apply map_length); exact H5. }
  destruct C as [gs [E1 [E2 E3]]]. rewrite E1. cbn [bind gathered].
  assert (Hg : gs <> []) by (intros ->; inversion E2; subst; inversion H; subst; congruence).
  destruct (concat_frames_stacked gs Hg E3) as [T [ET HT]]. rewrite ET. exists gs, T. split; [reflexivity|]. split; [exact E2|exact HT].
Qed.
Print Assumptions C71_rgs_files.
Theorem C71_rgs_errors : forall fsys td ship before p rest data e, In ship rgs_ships ->
  (read_bgm_rgs fsys td [] ship = Raise ValueError) /\
  (Forall2 (fun p rt => rgs_rows fsys td p (fst rt) (snd rt)) before data -> rgs_error fsys td p e ->
   read_bgm_rgs fsys td (before ++ p :: rest) ship = Raise e).
Proof.
  intros fsys td ship before p rest data e Hs. unfold read_bgm_rgs.
  assert (E : has [lit "Atlantis"; lit "NBP"] ship = true) by (apply has_spec; exact Hs). rewrite E. cbn [negb]. split; [reflexivity|].
  intros H He.
  match goal with |- context [collect ?r _] => assert (C : collect r (before ++ p :: rest) = Raise e); [|rewrite C; reflexivity] end.
  induction H as [|q [rows ts] before data Hq _ IH].
  - cbn [app collect]. unfold open_text at 1. destruct He as [H1|text rows H1 H2 H3|text rows H1 H2 H3 H4|text rows stamps e H1 H2 H3 H4 H5]; rewrite H1; cbn [bind]; [reflexivity| | |];
      apply csv_rows_file in H2; cbv zeta; rewrite H2.
    + rewrite (check_columns_bad _ _ H3). reflexivity.
    + rewrite (check_columns_ok _ _ H3). cbn [bind]. rewrite (stamps_numeric _ _ _ _ H4). reflexivity.
    + rewrite (check_columns_ok _ _ H3). cbn [bind]. rewrite (stamps_time _ _ _ _ _ H4), H5. reflexivity.
  - destruct Hq as [text [stamps [H1 [H2 [H3 [H4 H5]]]]]]. cbn [fst snd] in *. apply csv_rows_file in H2.
    cbn [app collect]. unfold open_text at 1. rewrite H1. cbn [bind]. cbv zeta. rewrite H2, (check_columns_ok _ _ H3). cbn [bind].
    rewrite (stamps_time _ _ _ _ _ H4), H5. cbn [bind]. rewrite IH. reflexivity.
Qed.
Print Assumptions C71_rgs_errors.
Definition rgs_file (p : str) : option str :=
  if str_eqb p (lit "r") then Some (lit "id 2021/01/02 03:04:05 980000.5 5 6 7 8 9 10 11 -12.5 100" ++ [nl]) else None.
Example C71_rgs_case : read_bgm_rgs rgs_file td_len [lit "r"] (lit "NBP") =
  Ok (Some [(lit "grav", [Num (9800005 # 10)]); (lit "lat", [Num (-125 # 10)]); (lit "lon", [Num (100 # 1)]); (lit "date_time", [Time 19])]) /\
  read_bgm_rgs rgs_file td_len [lit "r"] (lit "Thompson") = Ok None /\
  read_bgm_rgs rgs_file td_len [lit "r"; lit "s"] (lit "Atlantis") = Raise FileNotFoundError.
Proof. repeat split; vm_compute; reflexivity. Qed.
