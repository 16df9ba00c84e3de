(** Property C108: the exceptions that the navigation reader can raise, whatever the files contain. *)
From Coq Require Import ZArith Reals Ascii String Bool Lia Lra List.
From Verif Require Import M_Py L_Base M_Str S_Str L_Str M_Cal S_Cal L_Cal M_Ini M_Nmea S_Nmea L_Nmea M_ReadNav S_ReadNav L_ReadNav P_Nmea S_Raises.
Import ListNotations.
Open Scope Z_scope.

Section Only.
Variable P : exn -> Prop.
Notation only := (raises_only P).
Lemma only_ok (A : Type) (a : A) : only (Ok a).
Proof. discriminate. Qed.
Lemma only_raise (A : Type) e : P e -> only (@Raise A e).
Proof. intros H e' E. injection E as <-. exact H. Qed.
Lemma only_bind (A B : Type) (r : res A) (f : A -> res B) : only r -> (forall a, r = Ok a -> only (f a)) -> only (bind r f).
Proof. intros Hr Hf e. destruct r as [a|e']; cbn [bind]; [apply Hf; reflexivity|]. intros E. apply Hr. injection E as ->. reflexivity. Qed.
Lemma only_mapM (A B : Type) (f : A -> res B) l : (forall a, In a l -> only (f a)) -> only (mapM f l).
Proof.
  induction l as [|a t IH]; intros H; [apply only_ok|]. cbn [mapM]. apply only_bind; [apply H; left; reflexivity|]. intros b _.
  apply only_bind; [apply IH; intros x Hx; apply H; right; exact Hx|]. intros; apply only_ok.
Qed.
Lemma only_getr (A : Type) (l : list A) n : P IndexError -> only (getr l n).
Proof. intros H. unfold getr. destruct (nth_error l n); [apply only_ok|apply only_raise; exact H]. Qed.
Lemma only_search (A : Type) (m : str -> option A) s : P IndexError -> only (search m s).
Proof. intros H. induction s as [|c t IH]; cbn [search]; destruct (m _); try apply only_ok; [apply only_raise; exact H|exact IH]. Qed.
End Only.
Lemma only_weaken (A : Type) (P Q : exn -> Prop) (r : res A) : (forall e, P e -> Q e) -> raises_only P r -> raises_only Q r.
Proof. intros H K e E. apply H, K, E. Qed.

Lemma py_int_only s : raises_only (eq ValueError) (py_int s).
Proof.
  unfold py_int. destruct (negb _); [apply only_raise; reflexivity|]. destruct (take_sign _) as [neg d]. destruct d; [apply only_raise; reflexivity|].
  destruct (forallb _ _); [apply only_ok|apply only_raise; reflexivity].
Qed.
Lemma py_float_only s : raises_only (eq ValueError) (py_float s).
Proof.
  unfold py_float. destruct (negb _); [apply only_raise; reflexivity|]. destruct (take_sign _) as [neg d].
  destruct (_ || _); [apply only_ok|]. destruct (str_eqb _ _); [apply only_ok|]. unfold parse_dec.
  destruct (span is_digit d) as [i r]. destruct (match r with [] => _ | c :: r' => _ end) as [f r'].
  destruct (i ++ f); [apply only_raise; reflexivity|]. destruct r'; [apply only_ok|]. destruct (_ || _); [|apply only_raise; reflexivity].
  destruct (take_sign r') as [en d0]. destruct d0; [apply only_raise; reflexivity|]. destruct (forallb _ _); [apply only_ok|apply only_raise; reflexivity].
Qed.

Ltac only_num := first [apply (only_weaken _ (eq ValueError)); [intros ? <-; auto|apply py_int_only] | apply (only_weaken _ (eq ValueError)); [intros ? <-; auto|apply py_float_only]].
Ltac step := first [apply only_ok | only_num | apply only_getr; solve [auto] | apply only_search; solve [auto] | apply only_raise; solve [auto] | apply only_bind; [|intros ? ?]].

Section Lines.
Variable P : exn -> Prop.
Hypothesis PI : P IndexError.
Hypothesis PV : P ValueError.

Lemma split_only sep s : raises_only P (py_split sep s).
Proof. unfold py_split. destruct sep; repeat step. Qed.
Lemma post_only tk ln : raises_only P (post_fields tk ln).
Proof. unfold post_fields. step; [apply split_only|]. step. Qed.
Lemma coord_only post : raises_only P (nav_coord post).
Proof. unfold nav_coord. step; [step|]. step; [destruct (str_eqb _ _); repeat step|]. destruct a0; repeat step. Qed.
Lemma navcoords_only l tk : raises_only P (navcoords l tk).
Proof. unfold navcoords. step; [|step]. apply only_mapM. intros ln _. step; [apply post_only|apply coord_only]. Qed.
Lemma pre_only tk ln : raises_only P (pre_part tk ln).
Proof. unfold pre_part. step; [apply split_only|step]. Qed.
Lemma doy_only y doy h mi s us : raises_only P (doy_us y doy h mi s us).
Proof. unfold doy_us. destruct (_ && _); step. Qed.
Lemma directive_only lo hi sep s : raises_only P (directive lo hi sep s).
Proof. unfold directive. destruct (span _ _). destruct (_ && _); step. Qed.
Lemma Langseth_only l tk : raises_only P (navdate_Langseth l tk).
Proof.
  unfold navdate_Langseth. step; [|step]. apply only_mapM. intros ln _. step; [apply pre_only|]. step; [step|]. step; [step|].
  unfold strptime_Langseth. do 6 (step; [apply directive_only|]). match goal with |- raises_only _ (match snd ?x with _ => _ end) => destruct (snd x) end; [apply doy_only|step].
Qed.

Section Over.
Hypothesis PO : P OverflowError.
Lemma datetime_only y m d h mi s us : raises_only P (dt_us y m d h mi s us).
Proof. unfold dt_us. destruct (forallb _ _); [|step]. step; [|step]. unfold datetime_new. destruct (_ && _); step. Qed.
Lemma seconds_only v : raises_only P (split_seconds v).
Proof. destruct v; cbn [split_seconds]; try step. cbv zeta. destruct (_ || _); [step|]. destruct (_ <=? _); step. Qed.
Lemma clock_only l tk : raises_only P (clock_time l tk).
Proof.
  apply only_mapM. intros ln _. unfold clock_line. step; [apply post_only|]. step; [step|]. step; [step|]. step; [step|]. step; [step|].
  step; [apply seconds_only|step].
Qed.
Lemma dated_only l tk f : (forall p c, raises_only P (f p c)) -> raises_only P (dated l tk f).
Proof. intros H. unfold dated. step; [apply clock_only|]. step; [|step]. apply only_mapM. intros x _. step; [apply pre_only|apply H]. Qed.
Lemma Atlantis_only l tk : raises_only P (navdate_Atlantis l tk).
Proof. apply dated_only. intros p [[[h mi] s] ms]. step; [step|apply datetime_only]. Qed.
Lemma NBP_only l tk : raises_only P (navdate_NBP l tk).
Proof. apply dated_only. intros p [[[h mi] s] ms]. step; [step|apply doy_only]. Qed.
Lemma Thompson_only l tk : raises_only P (navdate_Thompson l tk).
Proof. apply dated_only. intros p [[[h mi] s] ms]. step; [step|apply datetime_only]. Qed.
Lemma back_only before c : raises_only P (revelle_back before c).
Proof.
  induction before as [|l t IH]; cbn [revelle_back]; [step|]. destruct (pmatch _ _); [|exact IH]. destruct c as [[[h mi] s] ms]. step; [apply datetime_only|step].
Qed.
Lemma Revelle_only l tk : raises_only P (navdate_Revelle l tk).
Proof. unfold navdate_Revelle. step; [apply clock_only|]. apply only_mapM. intros [[lo i] c] _. apply back_only. Qed.
Lemma iso_only f : raises_only P (iso_micro f).
Proof. unfold iso_micro. step; [step|]. destruct a; step. Qed.
End Over.

Lemma from_posix_only m k : P OverflowError -> P OSError -> raises_only P (from_posix m k).
Proof. intros PO PS. unfold from_posix. destruct (_ <? _); [step|]. destruct (_ <? _); [step|]. destruct (_ <? _); step. Qed.
Lemma Ride_only l tk : (tk = lit "INGGA" -> P OverflowError /\ P OSError) -> (tk = lit "GPGGA" -> P OverflowError) -> raises_only P (navdate_Ride l tk).
Proof.
  intros H1 H2. unfold navdate_Ride. destruct (talker_lines tk l) as [|ln0 rest]; [step|]. step; [|step]. apply only_mapM. intros ln _. unfold ride_line.
  destruct (str_eqb tk (lit "INGGA")) eqn:E1.
  { apply str_eqb_eq in E1. destruct (H1 E1) as [PO PS]. step; [step|]. step; [apply from_posix_only; assumption|step]. }
  destruct (str_eqb tk (lit "GPGGA")) eqn:E2; [|step].
  apply str_eqb_eq in E2. pose proof (H2 E2) as PO. step; [step|]. step; [apply iso_only; exact PO|]. step; [apply datetime_only; exact PO|step].
Qed.
End Lines.

(** times that are all there *)
Definition stamped_times (t : timest) : Prop := match t with Sentinel => True | Stamps l => forall o, In o l -> o <> None end.
Lemma map_some_times (l : list Z) : stamped_times (Stamps (map Some l)).
Proof. intros o H E. apply in_map_iff in H. destruct H as [z [<- _]]. discriminate. Qed.
Lemma dated_times l tk f t : dated l tk f = Ok t -> stamped_times (Stamps t).
Proof.
  unfold dated. destruct (clock_time l tk) as [c|]; [|discriminate]. cbn [bind]. destruct (mapM _ _) as [u|]; [|discriminate]. cbn [bind].
  intros E. injection E as <-. apply map_some_times.
Qed.
Lemma Langseth_times l tk t : navdate_Langseth l tk = Ok t -> stamped_times (Stamps t).
Proof. unfold navdate_Langseth. destruct (mapM _ _) as [u|]; [|discriminate]. cbn [bind]. intros E. injection E as <-. apply map_some_times. Qed.
Lemma mapM_In (A B : Type) (f : A -> res B) l l' b : mapM f l = Ok l' -> In b l' -> exists a, In a l /\ f a = Ok b.
Proof.
  revert l'. induction l as [|a t IH]; cbn [mapM]; intros l' E H; [injection E as <-; destruct H|].
  destruct (f a) as [x|] eqn:Ef; [|discriminate]. cbn [bind] in E. destruct (mapM f t) as [u|]; [|discriminate]. cbn [bind] in E. injection E as <-.
  destruct H as [<-|H]; [exists a; split; [left; reflexivity|exact Ef]|]. destruct (IH u eq_refl H) as [y [Hy Ey]]. exists y. split; [right; exact Hy|exact Ey].
Qed.
Lemma Ride_times l tk t : In tk [lit "INGGA"; lit "GPGGA"] -> navdate_Ride l tk = Ok t -> stamped_times t.
Proof.
  intros Ht. unfold navdate_Ride. destruct (talker_lines tk l) as [|ln0 rest]; [intros E; injection E as <-; exact I|].
  destruct (mapM (ride_line tk) (ln0 :: rest)) as [u|] eqn:Em; [|discriminate]. intros E. cbn [bind] in E. injection E as <-. intros o Ho ->.
  destruct (mapM_In _ _ _ _ _ _ Em Ho) as [ln [_ El]]. clear -Ht El. unfold ride_line in El. destruct Ht as [<-|[<-|[]]].
  - replace (str_eqb (lit "INGGA") (lit "INGGA")) with true in El by reflexivity. destruct (search _ _) as [p|]; [|discriminate]. cbn [bind] in El.
    destruct (from_posix _ _); discriminate.
  - replace (str_eqb (lit "GPGGA") (lit "INGGA")) with false in El by reflexivity. replace (str_eqb (lit "GPGGA") (lit "GPGGA")) with true in El by reflexivity.
    destruct (search _ _) as [p|]; [|discriminate]. cbn [bind] in El. destruct (iso_micro _); [|discriminate]. cbn [bind] in El. destruct (dt_us _ _ _ _ _ _ _); discriminate.
Qed.

Section Table.
Variable P : exn -> Prop.
Hypothesis PI : P IndexError.
Hypothesis PV : P ValueError.
Lemma file_rows_only sampling d lon lat t : (P AttributeError \/ stamped_times (Stamps t)) -> raises_only P (file_rows sampling d lon lat t).
Proof.
  intros Ht. unfold file_rows. apply only_bind.
  { apply only_mapM. intros o Ho. destruct o as [z|]; cbn [stamp]; [step|]. destruct Ht as [Ha|Ht]; [apply only_raise; exact Ha|]. destruct (Ht None Ho eq_refl). }
  intros ts _. destruct ts as [|z ts']; [step|]. destruct (Req_EM_T _ _); [step|].
  do 3 (apply only_bind; [apply only_mapM; intros; apply only_getr; exact PI|intros ? _]). step.
Qed.
Lemma files_only fsys reader tk sampling d paths : P FileNotFoundError -> (forall l, raises_only P (reader l tk)) ->
  (P AttributeError \/ forall l lon lat t, reader l tk = Ok (Some (lon, lat, t)) -> stamped_times t) ->
  raises_only P (read_files fsys reader tk sampling d paths).
Proof.
  intros PF Hr Ht. induction paths as [|p rest IH]; cbn [read_files]; [step|]. destruct (fsys p) as [text|]; [|apply only_raise; exact PF].
  apply only_bind; [apply Hr|]. intros [[[lon lat] [|t]]|] Er; [step| |step].
  apply only_bind; [apply file_rows_only; destruct Ht as [Ha|Ht]; [left; exact Ha|right; exact (Ht _ _ _ _ Er)]|]. intros rows _.
  apply only_bind; [exact IH|]. intros; step.
Qed.
End Table.

Lemma reader_only ship tk l : raises_only (nav_exception ship tk) (ship_reader ship l tk).
Proof.
  unfold ship_reader.
  destruct (str_eqb ship (lit "Atlantis")) eqn:E1; [|destruct (str_eqb ship (lit "NBP")) eqn:E2; [|destruct (str_eqb ship (lit "Thompson")) eqn:E3;
    [|destruct (str_eqb ship (lit "Revelle")) eqn:E4; [|destruct (str_eqb ship (lit "Ride")) eqn:E5; [|destruct (str_eqb ship (lit "Langseth")) eqn:E6;
    [|destruct (str_eqb ship (lit "Sikuliaq") && str_eqb tk (lit "GPGGA")) eqn:E7; [|apply only_ok]]]]]]].
  1-6: match goal with E : str_eqb ?s _ = true |- _ => apply str_eqb_eq in E; subst s end.
  1-4: (apply only_bind; [apply navcoords_only; apply ne_line; cbn [In]; auto 9; constructor|]); intros c _; (apply only_bind; [|intros; apply only_ok]).
  1-4: first [apply Atlantis_only|apply NBP_only|apply Thompson_only|apply Revelle_only]; (apply ne_line; [cbn [In]; auto 9|]); first [apply le_index|apply le_value|apply le_clock; cbn [In]; auto 9].
  - apply only_bind; [apply navcoords_only; apply ne_line; cbn [In]; auto 9; constructor|]. intros c _. apply only_bind; [|intros; apply only_ok].
    apply Ride_only; try (apply ne_line; cbn [In]; auto 9; constructor; fail).
    + intros ->. split; (apply ne_line; [cbn [In]; auto 9|]); [apply le_stamp; cbn [In]; auto|apply le_posix; reflexivity].
    + intros ->. apply ne_line; [cbn [In]; auto 9|]. apply le_stamp; cbn [In]; auto.
  - apply only_bind; [apply navcoords_only; apply ne_line; cbn [In]; auto 9; constructor|]. intros c _. apply only_bind; [|intros; apply only_ok].
    apply Langseth_only; apply ne_line; cbn [In]; auto 9; constructor.
  - apply andb_true_iff in E7. destruct E7 as [Ea Eb]. apply str_eqb_eq in Ea. apply str_eqb_eq in Eb. subst ship tk.
    apply only_bind; [apply navcoords_only; apply ne_Sikuliaq; try reflexivity; constructor|]. intros c _. apply only_bind; [|intros; apply only_ok].
    apply Ride_only; [apply ne_Sikuliaq; try reflexivity; constructor..|discriminate|].
    intros _. apply ne_Sikuliaq; try reflexivity. apply le_stamp; cbn [In]; auto.
Qed.
Lemma reader_times ship tk : nav_exception ship tk AttributeError \/ forall l lon lat t, ship_reader ship l tk = Ok (Some (lon, lat, t)) -> stamped_times t.
Proof.
  unfold ship_reader.
  destruct (str_eqb ship (lit "Atlantis")) eqn:E1; [right|destruct (str_eqb ship (lit "NBP")) eqn:E2; [right|destruct (str_eqb ship (lit "Thompson")) eqn:E3;
    [right|destruct (str_eqb ship (lit "Revelle")) eqn:E4; [left|destruct (str_eqb ship (lit "Ride")) eqn:E5; [|destruct (str_eqb ship (lit "Langseth")) eqn:E6; [right|right;
    destruct (str_eqb ship (lit "Sikuliaq") && str_eqb tk (lit "GPGGA")) eqn:E7; [|discriminate]]]]]]].
  1-3, 6: intros l lon lat t; destruct (navcoords l tk) as [c|]; [|discriminate]; cbn [bind];
      match goal with |- context [bind (?f ?a ?b) _] => destruct (f a b) as [u|] eqn:Eu; [|discriminate] end; cbn [bind]; intros E; injection E as _ <-;
      first [exact (dated_times _ _ _ _ Eu)|exact (Langseth_times _ _ _ Eu)].
  - apply str_eqb_eq in E4. subst ship. apply ne_line; [cbn [In]; auto 9|]. apply le_undated. reflexivity.
  - apply str_eqb_eq in E5. subst ship. destruct (in_dec (list_eq_dec ascii_dec) tk [lit "INGGA"; lit "GPGGA"]) as [Hi|Hn].
    + right. intros l lon lat t. destruct (navcoords l tk) as [c|]; [|discriminate]. cbn [bind]. destruct (navdate_Ride l tk) as [u|] eqn:Eu; [|discriminate]. cbn [bind].
      intros E. injection E as _ <-. exact (Ride_times _ _ _ Hi Eu).
    + left. apply ne_line; [cbn [In]; auto 9|]. apply le_unstamped; [reflexivity|exact Hn].
  - apply andb_true_iff in E7. destruct E7 as [_ Eb]. apply str_eqb_eq in Eb. subst tk.
    intros l lon lat t. destruct (navcoords l _) as [c|]; [|discriminate]. cbn [bind]. destruct (navdate_Ride l _) as [u|] eqn:Eu; [|discriminate]. cbn [bind].
    intros E. injection E as _ <-. refine (Ride_times _ _ _ _ Eu). cbn [In]; auto.
Qed.

Lemma reader_cases ship tk : (nav_exception ship tk IndexError /\ nav_exception ship tk ValueError) \/ forall l, ship_reader ship l tk = Ok None.
Proof.
  unfold ship_reader.
  destruct (str_eqb ship (lit "Atlantis")) eqn:E1; [left|destruct (str_eqb ship (lit "NBP")) eqn:E2; [left|destruct (str_eqb ship (lit "Thompson")) eqn:E3;
    [left|destruct (str_eqb ship (lit "Revelle")) eqn:E4; [left|destruct (str_eqb ship (lit "Ride")) eqn:E5; [left|destruct (str_eqb ship (lit "Langseth")) eqn:E6; [left|
    destruct (str_eqb ship (lit "Sikuliaq") && str_eqb tk (lit "GPGGA")) eqn:E7; [left|right; reflexivity]]]]]]].
  1-6: match goal with E : str_eqb ?s _ = true |- _ => apply str_eqb_eq in E; subst s end; split; apply ne_line; [cbn [In]; auto 9|constructor|cbn [In]; auto 9|constructor].
  apply andb_true_iff in E7. destruct E7 as [Ea Eb]. apply str_eqb_eq in Ea. apply str_eqb_eq in Eb. split; apply ne_Sikuliaq; (assumption || constructor).
Qed.

(** C108: [int] and [float] of a text raise nothing but ValueError; the positions of the lines nothing but IndexError (a line with
    too few fields) and ValueError; [read_nav] what the table of S_Raises lists for the ship and talker. *)
Theorem C108_numbers : forall s, raises_only (eq ValueError) (py_int s) /\ raises_only (eq ValueError) (py_float s).
Proof. intros s. split; [apply py_int_only|apply py_float_only]. Qed.
Print Assumptions C108_numbers.

Theorem C108_positions : forall allnav talker, raises_only (fun e => e = IndexError \/ e = ValueError) (navcoords allnav talker).
Proof. intros. apply navcoords_only; auto. Qed.
Print Assumptions C108_positions.

Theorem C108_enough_fields : forall allnav talker sub, usable talker -> selected (occurs talker) allnav sub ->
  Forall (fun ln => exists pre fields, sentence talker ln pre fields /\ (5 <= List.length fields)%nat) sub -> raises_only (eq ValueError) (navcoords allnav talker).
Proof.
  intros allnav talker sub Hu Hs Hf. unfold navcoords. rewrite (talker_lines_selected _ _ _ Hs). apply only_bind; [|intros; apply only_ok].
  apply only_mapM. intros ln Hl. pose proof (proj1 (Forall_forall _ _) Hf ln Hl) as [pre [fields [Se L5]]]. rewrite (sentence_fields _ _ _ _ Hu Se). cbn [bind].
  destruct fields as [|f0 [|f1 [|f2 [|f3 [|f4 rest]]]]]; cbn [List.length] in L5; try lia. unfold nav_coord, getr. cbn [nth_error bind].
  destruct (str_eqb f1 []); cbn [bind]; [apply only_ok|]. destruct (str_eqb f3 []); [apply only_ok|].
  apply only_bind; [apply py_int_only|intros ? _]. apply only_bind; [apply py_float_only|intros ? _]. apply only_bind; [apply py_int_only|intros ? _].
  apply only_bind; [apply py_float_only|intros ? _]. apply only_ok.
Qed.
Print Assumptions C108_enough_fields.

Theorem C108_read_nav : forall fsys ship paths sampling talker tk d, (talker = Some tk \/ talker = None /\ default_talker ship tk) ->
  raises_only (nav_exception ship tk) (read_nav fsys ship paths sampling talker None d).
Proof.
  intros fsys ship paths sampling talker tk d Ht. unfold read_nav, read_nav_from. destruct (assoc ship nav_talkers) as [k|] eqn:Ek; [|apply only_ok].
  assert (E : match talker, Some k with Some t, _ => t | None, Some t => t | None, None => [] end = tk).
  { destruct Ht as [->|[-> Hd]]; [reflexivity|]. apply (proj1 (assoc_default ship)) in Hd. congruence. }
  assert (G : raises_only (nav_exception ship tk) (read_files fsys (ship_reader ship) tk sampling d paths)).
  { destruct (reader_cases ship tk) as [[H1 H2]|Hn].
    - apply files_only; [exact H1|exact H2|apply ne_file|intros l; apply reader_only|apply reader_times].
    - clear -Hn. induction paths as [|p rest IH]; cbn [read_files]; [apply only_ok|]. destruct (fsys p) as [text|]; [|apply only_raise; apply ne_file].
      rewrite Hn. apply only_ok. }
  destruct talker as [t|]; cbv zeta; rewrite E; (apply only_bind; [exact G|]); intros [[[t0 lo] la]|] _; apply only_ok.
Qed.
Print Assumptions C108_read_nav.

(** Each of them is raised for some file: the table is not too long. *)
Definition file_of (text : str) : fs := fun _ => Some text.
Theorem C108_attained : forall ship tk e, (default_talker ship tk \/ ship = lit "Ride" /\ In tk [lit "GPGGA"; lit "GNGGA"]) -> nav_exception ship tk e ->
  exists fsys, read_nav fsys ship [lit "f"] 1 (Some tk) None 0 = Raise e.
Proof.
  intros ship tk e Hs He.
  assert (C : In (ship, tk) [(lit "Atlantis", lit "GPGGA"); (lit "NBP", lit "GPGGA"); (lit "Revelle", lit "GPGGA"); (lit "Sikuliaq", lit "GPGGA");
    (lit "Thompson", lit "INGGA"); (lit "Ride", lit "INGGA"); (lit "Langseth", lit "INGGA"); (lit "Ride", lit "GPGGA"); (lit "Ride", lit "GNGGA")]).
  { destruct Hs as [[s Hi|s Hi]|[-> [<-|[<-|[]]]]]; [| |cbn [In]; tauto..]; cbn [In] in Hi; decompose [or] Hi; try contradiction; subst s; cbn [In]; tauto. }
  assert (L : e = FileNotFoundError \/ line_exception ship tk e) by (destruct He; auto). clear Hs He.
  destruct L as [->|L].
  { exists (fun _ => None). cbn [In] in C. decompose [or] C; try contradiction; match goal with H : (_, _) = (ship, tk) |- _ => injection H as <- <- end; reflexivity. }
  cbn [In] in C; decompose [or] C; clear C; try contradiction; match goal with H : (_, _) = (ship, tk) |- _ => injection H as <- <- end;
    destruct L as [| |H|H1 H2|H1 H2|H|H1 H2];
    try (exfalso; cbn [In] in *; repeat match goal with H : _ \/ _ |- _ => destruct H end; (discriminate || contradiction));
    try (exfalso; match goal with H : ~ In _ _ |- _ => apply H; cbn [In]; tauto end).
  all: first
    [ exists (file_of (lit "$GPGGA")); reflexivity | exists (file_of (lit "$INGGA")); reflexivity | exists (file_of (lit "$GNGGA")); reflexivity
    | exists (file_of (lit "$GPGGA,0,x,N,0,E")); reflexivity | exists (file_of (lit "$INGGA,0,x,N,0,E")); reflexivity | exists (file_of (lit "$GNGGA,0,x,N,0,E")); reflexivity
    | exists (file_of (lit "$GPGGA,000000.1234567890123456,,,,")); reflexivity | exists (file_of (lit "$INGGA,000000.1234567890123456,,,,")); reflexivity
    | exists (file_of (lit "99999999999999999999 $INGGA,,,,,")); reflexivity | exists (file_of (lit "100000000000000000 $INGGA,,,,,")); reflexivity
    | exists (file_of (lit "2023-01-01T00:00:00.5e20Z $GPGGA,,,,,")); reflexivity
    | exists (file_of (lit "$GPGGA,000000,,,,")); reflexivity | exists (file_of (lit "$GNGGA,,,,,")); reflexivity ].
Qed.
Print Assumptions C108_attained.

Example C108_case_numbers : py_int (lit "1__0") = Raise ValueError /\ py_float (lit "1__0") = Raise ValueError /\ py_float (lit "1_0.5") = Ok (FDec 105 (-1)) /\
  py_float [] = Raise ValueError /\ py_float (lit "1e") = Raise ValueError /\ py_int (lit "12.") = Raise ValueError.
Proof. repeat split; reflexivity. Qed.
(** a ship's file with a line too short, and one with enough fields that are not numbers *)
Example C108_case_positions : navcoords [lit "$GPGGA,120000,1530.5"] (lit "GPGGA") = Raise IndexError /\
  navcoords [lit "$GPGGA,120000,1530.5,N,0x,E"] (lit "GPGGA") = Raise ValueError /\
  (exists pre fields, sentence (lit "GPGGA") (lit "$GPGGA,120000,1530.5,N,0x,E") pre fields /\ (5 <= List.length fields)%nat).
Proof.
  split; [reflexivity|]. split; [reflexivity|]. exists (lit "$"), [lit "120000"; lit "1530.5"; lit "N"; lit "0x"; lit "E"]. split; [|cbn; lia].
  apply (mk_sentence (lit "GPGGA") (lit "$") [lit "120000"; lit "1530.5"; lit "N"; lit "0x"; lit "E"]); (discriminate || reflexivity).
Qed.
(** seconds since 1970 that no calendar, no C library and no 64 bit number of seconds can hold *)
Example C108_case_posix : read_nav (file_of (lit "300000000000 $INGGA,,,,,")) (lit "Ride") [lit "f"] 1 None None 0 = Raise ValueError /\
  read_nav (file_of (lit "67768036191676800 $INGGA,,,,,")) (lit "Ride") [lit "f"] 1 None None 0 = Raise OSError /\
  read_nav (file_of (lit "9223372036854775808 $INGGA,,,,,")) (lit "Ride") [lit "f"] 1 None None 0 = Raise OverflowError.
Proof. repeat split; reflexivity. Qed.
