(** Lemmas for properties C54-C59. *)
From Coq Require Import ZArith Reals Ascii String Bool Lia Lra List.
From Verif Require Import M_Py L_Base M_Str S_Str L_Str M_Cal S_Cal L_Cal M_Nmea S_Nmea.
Import ListNotations.
Open Scope Z_scope.
Local Notation len := List.length.

(** ** Splitting at an unbordered separator *)
Lemma app_prefix_cut (A : Type) (u v w : list A) : forall t, u ++ v = t ++ w -> (len u <= len t)%nat -> exists r, t = u ++ r /\ v = r ++ w.
Proof.
  intros t E H. destruct (app_eq_app _ _ _ _ E) as [l [[E1 E2]|[E1 E2]]].
  - assert (l = []) by (subst u; rewrite app_length in H; destruct l; [reflexivity|simpl in H; lia]). subst l.
    exists []. rewrite app_nil_r in *. simpl in *. subst. split; reflexivity.
  - exists l. split; assumption.
Qed.

Lemma no_overlap t a b p q : unbordered t -> a ++ t ++ b = p ++ t ++ q -> (len p < len a)%nat ->
  (len p + len t <= len a)%nat.
Proof.
  intros Hu E Hlt. destruct (le_lt_dec (len p + len t) (len a)) as [|Hc]; [assumption|exfalso].
  symmetry in E. destruct (app_prefix_cut _ _ _ _ _ E) as [u [-> E1]]; [lia|].
  rewrite app_length in *.
  destruct (app_prefix_cut _ u (t ++ b) q t) as [v [Et E2]]; [symmetry; exact E1|lia|].
  assert (Hv : len t = (len u + len v)%nat) by (rewrite Et; apply app_length).
  symmetry in E2. destruct (app_prefix_cut _ v q b t E2) as [w [Ew _]]; [lia|].
  destruct (Hu v w u Ew Et) as [->| ->].
  - simpl in Hv. lia.
  - rewrite app_nil_r in Ew. subst v. lia.
Qed.

Lemma unbordered_none_before t a b : unbordered t -> ~ occurs t a -> none_before t (a ++ t ++ b) (len a).
Proof.
  intros Hu Hn p q E. destruct (le_lt_dec (len a) (len p)) as [|Hlt]; [assumption|exfalso].
  pose proof (no_overlap t a b p q Hu E Hlt) as Ho.
  apply Hn. rewrite (app_assoc p t q) in E. symmetry in E.
  destruct (app_prefix_cut _ _ _ _ _ E) as [r [-> _]]; [rewrite app_length; lia|].
  exists p, r. rewrite app_assoc. reflexivity.
Qed.

Lemma split_hd t a b : usable t -> ~ occurs t a -> split t (a ++ t ++ b) = a :: split t b.
Proof. intros [H1 H2] H. apply split_first; [exact H1|]. apply unbordered_none_before; assumption. Qed.

Lemma split_last t tail : usable t -> ~ occurs t tail -> forall pre, last (split t (pre ++ t ++ tail)) [] = tail.
Proof.
  intros [Hn Hu] Ht pre. remember (len pre) as n eqn:En. revert pre En.
  induction n as [n IH] using lt_wf_ind. intros pre ->.
  assert (Hl : (0 < len t)%nat) by (destruct t; [congruence|simpl; lia]).
  destruct (first_occurrence t (pre ++ t ++ tail)) as [a [b [E Hf]]]; [exists pre, tail; reflexivity|].
  pose proof (Hf pre tail eq_refl) as Hle.
  rewrite E in Hf |- *. rewrite split_first by assumption.
  destruct (Nat.eq_dec (len a) (len pre)) as [He|Hne].
  - destruct (app_prefix_cut _ _ _ _ _ E) as [r [E1 E2]]; [lia|].
    assert (r = []) by (rewrite E1, app_length in He; destruct r; [reflexivity|simpl in He; lia]). subst r.
    cbn [app] in E2. apply app_inv_head in E2. subst b. rewrite split_none by assumption. reflexivity.
  - pose proof (no_overlap t pre tail a b Hu E ltac:(lia)) as Ho.
    rewrite (app_assoc a t b) in E. symmetry in E.
    destruct (app_prefix_cut _ _ _ _ _ E) as [r [-> Er]]; [rewrite app_length; lia|].
    assert (Hb : last (split t b) [] = tail).
    { rewrite Er. apply (IH (len r)); [rewrite !app_length; lia|reflexivity]. }
    cbn [last]. pose proof (split_nonnil t b). destruct (split t b); [congruence|]. exact Hb.
Qed.

(** ** Selected lines and fields *)
Lemma talker_lines_selected talker l sub : selected (occurs talker) l sub -> talker_lines talker l = sub.
Proof.
  unfold talker_lines. induction 1 as [|a l l' H _ IH|a l l' H _ IH]; cbn [filter]; [reflexivity| |].
  - rewrite (proj2 (containsb_spec _ _) H), IH. reflexivity.
  - rewrite (proj2 (containsb_false _ _) H). exact IH.
Qed.

Lemma selected_talker_lines talker l : selected (occurs talker) l (talker_lines talker l).
Proof.
  induction l as [|a l IH]; [constructor|]. unfold talker_lines. cbn [filter].
  destruct (containsb talker a) eqn:E.
  - constructor; [apply containsb_spec; exact E|exact IH].
  - constructor; [apply containsb_false; exact E|exact IH].
Qed.

Lemma selected_nil (A : Type) (P : A -> Prop) l : selected P l [] <-> Forall (fun a => ~ P a) l.
Proof.
  split.
  - intros H. remember [] as l' eqn:E. induction H; [constructor|discriminate|]. constructor; [assumption|apply IHselected; exact E].
  - induction 1; constructor; assumption.
Qed.

Lemma sentence_occurs talker ln pre fields : sentence talker ln pre fields -> occurs talker ln.
Proof. intros [ws _ _ _ _ ->|ws c f rest _ _ _ _ _ ->]; eexists; eexists; reflexivity. Qed.

Lemma lstrip_spaces ws s : Forall space ws -> (forall c r, s = c :: r -> ~ space c) -> lstrip (ws ++ s) = s.
Proof.
  intros Hw Hs. unfold lstrip, lstrip_by. rewrite drop_while_app.
  - apply drop_while_id. intros c r E. apply is_space_false. apply (Hs c r E).
  - eapply Forall_impl; [|exact Hw]. intros c Hc. apply is_space_spec. exact Hc.
Qed.

Lemma comma_not_space : ~ space comma.
Proof. apply is_space_false. reflexivity. Qed.

Lemma sentence_fields talker ln pre fields : usable talker -> sentence talker ln pre fields -> post_fields talker ln = Ok fields.
Proof.
  intros Hu H. unfold post_fields, py_split. pose proof (proj1 Hu) as Hn.
  destruct talker as [|t0 talker']; [congruence|]. set (talker := t0 :: talker') in *. cbn [bind].
  destruct H as [ws Hw Hf Hc Ho ->|ws c f rest Hw -> Hs Hc Ho ->].
  - rewrite (split_last _ _ Hu Ho), lstrip_spaces; [|exact Hw|intros c r E; injection E as <- _; exact comma_not_space].
    change (lit ",") with [comma]. change (comma :: join [comma] fields) with ([] ++ comma :: join [comma] fields).
    rewrite split_char_cons by (intros []). rewrite split_char_join by assumption. reflexivity.
  - rewrite (split_last _ _ Hu Ho), lstrip_spaces; [|exact Hw|].
    + change (lit ",") with [comma]. rewrite split_char_join by (assumption || discriminate). reflexivity.
    + intros x r E. destruct rest as [|p rest]; cbn [join app] in E; injection E as -> _; exact Hs.
Qed.

Lemma sentence_pre talker ln pre fields : usable talker -> sentence talker ln pre fields -> ~ occurs talker pre ->
  pre_part talker ln = Ok pre.
Proof.
  intros Hu H Hp. unfold pre_part, py_split. pose proof (proj1 Hu) as Hn.
  assert (E : exists b, ln = pre ++ talker ++ b) by (destruct H as [ws _ _ _ _ ->|ws c f rest _ _ _ _ _ ->]; eexists; reflexivity).
  destruct E as [b ->]. destruct talker as [|t0 talker']; [congruence|]. set (talker := t0 :: talker') in *. cbn [bind].
  rewrite (split_hd _ _ _ Hu Hp). reflexivity.
Qed.

(** ** Numbers *)
Definition plain (s : str) : Prop := Forall (fun c => is_digit c = true \/ c = "."%char) s.

Lemma plain_decimal w z k f : plain (decimal_text w z k f).
Proof.
  unfold plain, decimal_text. apply Forall_app. split.
  - eapply Forall_impl; [|apply pad_digits]. intros c H. left. exact H.
  - destruct k; [constructor|]. constructor; [right; reflexivity|].
    eapply Forall_impl; [|apply pad_digits]. intros c H. left. exact H.
Qed.

Lemma py_float_plain s : plain s -> s <> [] -> py_float s = parse_dec false s.
Proof.
  intros H Hn. unfold py_float.
  assert (Hsp : strip s = s).
  { apply strip_id. eapply Forall_impl; [|exact H]. intros c [Hc| ->]; [apply digit_not_space; exact Hc|reflexivity]. }
  assert (Hu : Forall (fun c => Ascii.eqb c "_" = false) s).
  { eapply Forall_impl; [|exact H]. intros c [Hc| ->]; [apply digit_neq; [exact Hc|reflexivity]|reflexivity]. }
  rewrite Hsp, us_ok_no_us by exact Hu. cbn [negb]. rewrite remove_char_none by exact Hu.
  destruct s as [|c s]; [congruence|]. inversion H as [|x l Hc Hs]; subst x l.
  assert (Hsg : take_sign (c :: s) = (false, c :: s)).
  { unfold take_sign. destruct Hc as [Hc| ->]; [|reflexivity].
    rewrite (digit_neq c "+" Hc), (digit_neq c "-" Hc) by reflexivity. reflexivity. }
  rewrite Hsg.
  assert (Hl : lower c <> "i"%char /\ lower c <> "n"%char).
  { destruct Hc as [Hc| ->]; [|split; discriminate].
    unfold lower. unfold is_digit in Hc. apply andb_true_iff in Hc. destruct Hc as [H1 H2]. apply N.leb_le in H1, H2.
    replace ((65 <=? N_of_ascii c)%N) with false by (symmetry; apply N.leb_gt; lia). cbn [andb].
    split; intros ->; vm_compute in H2; apply H2; reflexivity. }
  assert (Hne : forall d r, d = "i"%char \/ d = "n"%char -> str_eqb (map lower (c :: s)) (d :: r) = false).
  { intros d r Hd. cbn [map str_eqb]. replace (Ascii.eqb (lower c) d) with false; [reflexivity|].
    symmetry. apply Ascii.eqb_neq. destruct Hd as [->| ->]; tauto. }
  change (lit "inf") with ("i"%char :: lit "nf"). change (lit "infinity") with ("i"%char :: lit "nfinity").
  change (lit "nan") with ("n"%char :: lit "an"). rewrite !Hne by tauto. reflexivity.
Qed.

Lemma span_all g s : Forall (fun c => g c = true) s -> span g s = (s, []).
Proof. intros H. rewrite <- (app_nil_r s) at 1. apply span_app; [exact H|discriminate]. Qed.

Lemma parse_dec_point neg i f : Forall (fun c => is_digit c = true) i -> Forall (fun c => is_digit c = true) f -> i ++ f <> [] ->
  parse_dec neg (i ++ "."%char :: f) = Ok (FDec (signed neg (digits_val (i ++ f))) (- Z.of_nat (len f))).
Proof.
  intros Hi Hf Hn. unfold parse_dec. rewrite span_app; [|exact Hi|intros c r E; injection E as <- _; reflexivity].
  cbn [Ascii.eqb Bool.eqb]. rewrite (span_all _ f Hf). destruct (i ++ f); [congruence|]. reflexivity.
Qed.

Lemma parse_dec_int neg i : Forall (fun c => is_digit c = true) i -> i <> [] ->
  parse_dec neg i = Ok (FDec (signed neg (digits_val i)) 0).
Proof.
  intros Hi Hn. unfold parse_dec. rewrite (span_all _ i Hi), app_nil_r. destruct i; [congruence|]. reflexivity.
Qed.

Lemma pad_nonnil n z : (0 < n)%nat -> pad n z <> [].
Proof. intros H E. pose proof (pad_length n z) as L. rewrite E in L. simpl in L. lia. Qed.

Lemma decimal_nonnil w z k f : (0 < w)%nat -> decimal_text w z k f <> [].
Proof. intros H E. apply app_eq_nil in E. destruct E as [E _]. exact (pad_nonnil w z H E). Qed.

Lemma parse_decimal w z k f : (0 < w)%nat -> 0 <= z < 10 ^ Z.of_nat w -> 0 <= f < 10 ^ Z.of_nat k ->
  parse_dec false (decimal_text w z k f) = Ok (FDec (z * 10 ^ Z.of_nat k + f) (- Z.of_nat k)).
Proof.
  intros Hw Hz Hf. unfold decimal_text. destruct k as [|k].
  - rewrite app_nil_r, parse_dec_int; [|apply pad_digits|apply pad_nonnil; exact Hw].
    rewrite pad_val_small by exact Hz. cbn [signed]. change (10 ^ Z.of_nat 0) with 1 in *. do 2 f_equal. lia.
  - set (k' := S k) in *. rewrite parse_dec_point; [|apply pad_digits|apply pad_digits|].
    + rewrite digits_val_app, !pad_val_small, !pad_length by assumption. reflexivity.
    + intros E. apply app_eq_nil in E. exact (pad_nonnil w z Hw (proj1 E)).
Qed.

Lemma py_float_decimal w z k f : (0 < w)%nat -> 0 <= z < 10 ^ Z.of_nat w -> 0 <= f < 10 ^ Z.of_nat k ->
  py_float (decimal_text w z k f) = Ok (FDec (z * 10 ^ Z.of_nat k + f) (- Z.of_nat k)).
Proof.
  intros Hw Hz Hf. rewrite py_float_plain; [apply parse_decimal; assumption|apply plain_decimal|apply decimal_nonnil; exact Hw].
Qed.

Lemma dec_val z k f : (IZR (z * 10 ^ Z.of_nat k + f) * powerRZ 10 (- Z.of_nat k) = IZR z + IZR f / 10 ^ k)%R.
Proof.
  assert (Hp : (10 ^ k <> 0)%R) by (apply pow_nonzero; lra).
  rewrite powerRZ_neg', <- pow_powerRZ. rewrite plus_IZR, mult_IZR.
  replace (IZR (10 ^ Z.of_nat k)) with (10 ^ k)%R.
  - field. exact Hp.
  - rewrite <- pow_IZR. reflexivity.
Qed.

(** ** Coordinates *)
Lemma mapM_Forall2 (A B : Type) (f : A -> res B) l bs : Forall2 (fun a b => f a = Ok b) l bs -> mapM f l = Ok bs.
Proof. induction 1 as [|a b l bs H _ IH]; [reflexivity|]. cbn [mapM]. rewrite H. cbn [bind]. rewrite IH. reflexivity. Qed.

Lemma Forall2_weaken (A B : Type) (P Q : A -> B -> Prop) l1 l2 : (forall a b, P a b -> Q a b) -> Forall2 P l1 l2 -> Forall2 Q l1 l2.
Proof. intros H. induction 1; constructor; auto. Qed.

Lemma mapM_Forall2_inv (A B : Type) (f : A -> res B) l : forall bs, mapM f l = Ok bs -> Forall2 (fun a b => f a = Ok b) l bs.
Proof.
  induction l as [|a l IH]; intros bs H; cbn [mapM] in H; [injection H as <-; constructor|].
  destruct (f a) as [b|] eqn:E; [|discriminate]. cbn [bind] in H.
  destruct (mapM f l) as [bs'|]; [|discriminate]. cbn [bind] in H. injection H as <-. constructor; [exact E|]. apply IH. reflexivity.
Qed.

Lemma firstn_pad n z s : firstn n (pad n z ++ s) = pad n z.
Proof. rewrite firstn_app, pad_length, Nat.sub_diag. cbn [firstn]. rewrite app_nil_r. rewrite firstn_all2; [reflexivity|rewrite pad_length; lia]. Qed.

Lemma skipn_pad n z s : skipn n (pad n z ++ s) = s.
Proof. rewrite skipn_app, pad_length, Nat.sub_diag. rewrite skipn_all2 by (rewrite pad_length; lia). reflexivity. Qed.

Lemma degmin_val d m k f neg : degmin d (FDec (m * 10 ^ Z.of_nat k + f) (- Z.of_nat k)) neg =
  Some (let v := IZR d + (IZR m + IZR f / 10 ^ k) / 60 in if neg then - v else v)%R.
Proof. unfold degmin, fval_R. rewrite dec_val. reflexivity. Qed.

Lemma hemisphere_sign plus minus h s v : hemisphere plus minus h s -> plus <> minus ->
  Some (if str_eqb h (lit minus) then - v else v)%R = Some (s * v)%R.
Proof.
  intros [|] Hne.
  - replace (str_eqb (lit plus) (lit minus)) with false; [f_equal; lra|]. symmetry. apply str_eqb_neq.
    unfold lit. intros E. apply Hne. rewrite <- (string_of_list_ascii_of_string plus), <- (string_of_list_ascii_of_string minus), E. reflexivity.
  - rewrite (proj2 (str_eqb_eq _ _) eq_refl). f_equal. lra.
Qed.

Lemma position_coord fields lon lat : position fields lon lat -> nav_coord fields = Ok (Some lon, Some lat).
Proof.
  intros [clock ns ew rest s1 s2 d1 m1 k1 f1 d2 m2 k2 f2 -> Hd1 Hm1 Hf1 Hd2 Hm2 Hf2 Hns Hew -> ->].
  unfold nav_coord, getr. cbn [nth_error bind].
  assert (E1 : str_eqb (position_text 2 d1 m1 k1 f1) [] = false).
  { apply str_eqb_neq. intros E. apply app_eq_nil in E. apply (pad_nonnil 2 d1); [lia|tauto]. }
  assert (E2 : str_eqb (position_text 3 d2 m2 k2 f2) [] = false).
  { apply str_eqb_neq. intros E. apply app_eq_nil in E. apply (pad_nonnil 3 d2); [lia|tauto]. }
  rewrite E1, E2. cbn [bind]. unfold position_text. rewrite !firstn_pad, !skipn_pad.
  rewrite !py_int_pad by (lia || exact Hd1 || exact Hd2). cbn [bind].
  rewrite !py_float_decimal by (lia || assumption). cbn [bind].
  rewrite !degmin_val. cbv zeta. rewrite (hemisphere_sign _ _ _ _ _ Hns), (hemisphere_sign _ _ _ _ _ Hew) by discriminate. reflexivity.
Qed.

Lemma no_position_coord fields : no_position fields -> nav_coord fields = Ok (None, None).
Proof.
  intros [[clock [rest ->]]|[clock [la [ns [rest ->]]]]]; unfold nav_coord, getr; cbn [nth_error bind].
  - reflexivity.
  - destruct (str_eqb la []); reflexivity.
Qed.

Lemma navcoords_read talker allnav sub rows : usable talker -> selected (occurs talker) allnav sub ->
  Forall2 (fix_read talker) sub rows -> navcoords allnav talker = Ok (map fst rows, map snd rows).
Proof.
  intros Hu Hs H. unfold navcoords. rewrite (talker_lines_selected _ _ _ Hs).
  rewrite (mapM_Forall2 _ _ _ sub rows); [reflexivity|].
  eapply Forall2_weaken; [|exact H]. intros ln r [pre [fields [Hsen Hr]]].
  rewrite (sentence_fields _ _ _ _ Hu Hsen). cbn [bind].
  destruct Hr as [[lon [lat [Hp ->]]]|[Hp ->]]; [apply position_coord|apply no_position_coord]; exact Hp.
Qed.

(** ** Clock *)
Lemma strip0_pow g z : g mod 10 <> 0 -> forall fuel, (z <= fuel)%nat -> strip0 fuel (g * 10 ^ Z.of_nat z) = g.
Proof.
  intros Hg. induction z as [|z IH]; intros fuel Hf.
  - change (10 ^ Z.of_nat 0) with 1. rewrite Z.mul_1_r. destruct fuel as [|fuel]; [reflexivity|].
    cbn [strip0]. destruct (Z.eqb_spec (g mod 10) 0); [contradiction|reflexivity].
  - destruct fuel as [|fuel]; [lia|]. cbn [strip0].
    replace (g * 10 ^ Z.of_nat (S z)) with ((g * 10 ^ Z.of_nat z) * 10) by (rewrite Nat2Z.inj_succ, Z.pow_succ_r by lia; ring).
    rewrite Z.mod_mul by lia. cbn [Z.eqb]. rewrite Z.div_mul by lia. apply IH. lia.
Qed.

Lemma split_seconds_val s k f g n : 0 <= s < 100 -> 0 <= f < 10 ^ Z.of_nat k -> f <> 0 -> lowest k f g n ->
  g * 10000 < 2 ^ 63 -> 1 <= s \/ 10 ^ Z.of_nat k <= f * 10000 ->
  split_seconds (FDec (s * 10 ^ Z.of_nat k + f) (- Z.of_nat k)) = Ok (s, g * 10000).
Proof.
  intros Hs Hf Hf0 [Hn [Eg Hg]] Hb Hr. unfold split_seconds.
  assert (Hp : 0 < 10 ^ Z.of_nat k) by (apply Z.pow_pos_nonneg; lia).
  rewrite Z.opp_involutive, Nat2Z.id. replace (Z.max 0 (- Z.of_nat k)) with 0 by lia. change (10 ^ 0) with 1. rewrite Z.mul_1_r.
  rewrite Z.abs_eq by nia.
  replace ((s * 10 ^ Z.of_nat k + f) / 10 ^ Z.of_nat k) with s by (rewrite Z.div_add_l by lia; rewrite Z.div_small by lia; lia).
  replace ((s * 10 ^ Z.of_nat k + f) mod 10 ^ Z.of_nat k) with f by (rewrite Z.add_comm, Z.mod_add by lia; rewrite Z.mod_small by lia; reflexivity).
  destruct (Z.leb_spec (10 ^ 16) s) as [H|_]; [change (10 ^ 16) with 10000000000000000 in H; lia|].
  destruct (Z.eqb_spec f 0) as [H|_]; [contradiction|]. cbn [orb negb andb].
  destruct (Z.ltb_spec ((s * 10 ^ Z.of_nat k + f) * 10000) (10 ^ Z.of_nat k)) as [H|_]; [exfalso; destruct Hr as [Hr|Hr]; nia|].
  rewrite Eg, strip0_pow by (assumption || lia).
  destruct (Z.leb_spec (2 ^ 63) (g * 10000)) as [H|_]; [lia|].
  destruct (Z.ltb_spec (s * 10 ^ Z.of_nat k + g * 10 ^ Z.of_nat (k - n)) 0) as [H|_]; [rewrite <- Eg in H; nia|]. reflexivity.
Qed.

Lemma split_seconds_whole s k : 0 <= s < 100 -> split_seconds (FDec (s * 10 ^ Z.of_nat k + 0) (- Z.of_nat k)) = Ok (s, 0).
Proof.
  intros Hs. unfold split_seconds.
  assert (Hp : 0 < 10 ^ Z.of_nat k) by (apply Z.pow_pos_nonneg; lia).
  rewrite Z.opp_involutive, Nat2Z.id, Z.add_0_r. replace (Z.max 0 (- Z.of_nat k)) with 0 by lia. change (10 ^ 0) with 1. rewrite Z.mul_1_r.
  rewrite Z.abs_eq by nia. rewrite Z.div_mul, Z.mod_mul by lia.
  destruct (Z.leb_spec (10 ^ 16) s) as [H|_]; [change (10 ^ 16) with 10000000000000000 in H; lia|].
  cbn [Z.eqb orb negb andb].
  change (2 ^ 63 <=? 0 * 10000) with false. cbv iota. destruct (Z.ltb_spec (s * 10 ^ Z.of_nat k) 0); [nia|]. reflexivity.
Qed.

Lemma lowest_exists k : forall f, 0 < f -> f < 10 ^ Z.of_nat k -> exists g n, lowest k f g n /\ 0 < g <= f.
Proof.
  induction k as [|k IH]; intros f H0 H1; [change (10 ^ Z.of_nat 0) with 1 in H1; lia|].
  rewrite Nat2Z.inj_succ, Z.pow_succ_r in H1 by lia.
  destruct (Z.eq_dec (f mod 10) 0) as [Hm|Hm].
  - destruct (IH (f / 10)) as [g [n [[Hn [E Hg]] Hb]]]; [Z.div_mod_to_equations; lia|Z.div_mod_to_equations; lia|].
    exists g, n. split; [|Z.div_mod_to_equations; lia]. split; [lia|]. split; [|exact Hg].
    replace (S k - n)%nat with (S (k - n)) by lia. rewrite Nat2Z.inj_succ, Z.pow_succ_r by lia. Z.div_mod_to_equations. nia.
  - exists f, (S k). split; [|lia]. split; [lia|]. split; [|exact Hm]. rewrite Nat.sub_diag. cbn. lia.
Qed.

Lemma hundredths_lowest k f c : 0 <= f < 10 ^ Z.of_nat k -> hundredths k f c -> (f = 0 /\ c = 0) \/ (f <> 0 /\ lowest k f c 2).
Proof.
  intros Hf [E [Hc Hm]].
  assert (Hp : 0 < 10 ^ Z.of_nat k) by (apply Z.pow_pos_nonneg; lia).
  destruct Hm as [->|Hm]; [left; lia|right].
  assert (Hk : (2 <= k)%nat).
  { destruct k as [|[|k]]; [| |lia]; exfalso; apply Hm.
    - change (10 ^ Z.of_nat 0) with 1 in *. assert (c = 0) by lia. subst c. reflexivity.
    - change (10 ^ Z.of_nat 1) with 10 in *. replace c with (f * 10) by lia. apply Z.mod_mul. lia. }
  assert (Ep : 10 ^ Z.of_nat k = 100 * 10 ^ Z.of_nat (k - 2)).
  { replace (Z.of_nat k) with (2 + Z.of_nat (k - 2)) by lia. rewrite Z.pow_add_r by lia. reflexivity. }
  split; [intros ->; assert (c <> 0) by (intros ->; apply Hm; reflexivity); nia|].
  split; [exact Hk|]. split; [nia|exact Hm].
Qed.

Lemma clock_line_val talker ln pre fields h mi s k f us : usable talker -> sentence talker ln pre fields ->
  shows_clock fields h mi s k f -> split_seconds (FDec (s * 10 ^ Z.of_nat k + f) (- Z.of_nat k)) = Ok (s, us) ->
  clock_line talker ln = Ok (h, mi, s, us).
Proof.
  intros Hu Hsen [[rest ->] [Hh [Hmi [Hs Hf]]]] Hsp. unfold clock_line.
  rewrite (sentence_fields _ _ _ _ Hu Hsen). unfold getr. cbn [bind nth_error].
  unfold clock_text. rewrite firstn_pad, skipn_pad, firstn_pad.
  replace (skipn 4 (pad 2 h ++ pad 2 mi ++ decimal_text 2 s k f)) with (decimal_text 2 s k f).
  - rewrite !py_int_pad by lia. cbn [bind]. rewrite py_float_decimal by (lia || assumption). cbn [bind]. rewrite Hsp. reflexivity.
  - rewrite app_assoc. change 4%nat with (2 + 2)%nat. rewrite skipn_app, app_length, !pad_length, Nat.sub_diag.
    rewrite skipn_all2 by (rewrite app_length, !pad_length; lia). reflexivity.
Qed.

Lemma clock_hundredths talker ln pre fields h mi s k f c : usable talker -> sentence talker ln pre fields ->
  shows_clock fields h mi s k f -> hundredths k f c -> clock_line talker ln = Ok (h, mi, s, c * 10000).
Proof.
  intros Hu Hsen Hc Hh. pose proof Hc as [_ [_ [_ [Hs Hf]]]].
  eapply clock_line_val; try eassumption. pose proof Hh as [E [Hc1 _]].
  destruct (hundredths_lowest k f c Hf Hh) as [[-> ->]|[H0 Hl]].
  - rewrite split_seconds_whole by lia. reflexivity.
  - apply (split_seconds_val s k f c 2); try assumption; [lia| |].
    + change (2 ^ 63) with 9223372036854775808. lia.
    + right. assert (0 < c) by (destruct Hl as [_ [E2 Hm]]; assert (c <> 0) by (intros ->; apply Hm; reflexivity); lia). nia.
Qed.

Lemma clock_readable talker ln pre fields h mi s k f : usable talker -> sentence talker ln pre fields ->
  shows_clock fields h mi s k f -> readable s k f -> exists us, clock_line talker ln = Ok (h, mi, s, us).
Proof.
  intros Hu Hsen Hc [Hk Hr]. pose proof Hc as [_ [_ [_ [Hs Hf]]]].
  destruct (Z.eq_dec f 0) as [->|H0].
  - exists 0. eapply clock_line_val; try eassumption. apply split_seconds_whole. lia.
  - destruct (lowest_exists k f ltac:(lia) ltac:(lia)) as [g [n [Hl Hb]]].
    exists (g * 10000). eapply clock_line_val; try eassumption. apply (split_seconds_val _ _ _ _ n); try assumption; try lia.
    assert (10 ^ Z.of_nat k <= 10 ^ 14) by (apply Z.pow_le_mono_r; lia). change (10 ^ 14) with 100000000000000 in *.
    change (2 ^ 63) with 9223372036854775808. lia.
Qed.

(** ** Datetimes *)
Lemma dt_us_instant y m d h mi s us i : 1 <= y <= 9999 -> valid_date (y, m, d) -> 0 <= h < 24 -> 0 <= mi < 60 -> 0 <= s < 60 ->
  0 <= us < 1000000 -> instant (y, m, d) h mi s us i -> dt_us y m d h mi s us = Ok i.
Proof.
  intros Hy Hd Hh Hm Hs Hu Hi. unfold dt_us. pose proof (proj1 (valid_date_iff _ _ _) Hd) as [Hm1 Hd1].
  pose proof (month_days_range y m _ (month_days_total y m Hm1)) as [_ Hd2].
  replace (forallb c_int [y; m; d; h; mi; s; us]) with true.
  - rewrite datetime_new_ok by assumption. cbn [bind]. f_equal. unfold utc_us. rewrite Z.sub_0_r.
    pose proof (instant_local y m d h mi s us (Some 0) Hd) as Hl.
    rewrite (instant_unique _ _ _ _ _ _ Hl), (instant_unique _ _ _ _ _ _ Hi). reflexivity.
  - symmetry. apply forallb_forall. intros x Hx. unfold c_int. apply andb_true_iff. change (2 ^ 31) with 2147483648.
    rewrite Z.leb_le, Z.ltb_lt. cbn [In] in Hx. lia.
Qed.

Lemma doy_us_instant y doy t h mi s us i : 1 <= y <= 9998 -> 1 <= doy <= 366 -> day_of_year y doy t ->
  0 <= h < 24 -> 0 <= mi < 60 -> 0 <= s < 60 -> 0 <= us < 1000000 -> instant t h mi s us i -> doy_us y doy h mi s us = Ok i.
Proof.
  intros Hy Hd [n [Hn Ed]] Hh Hm Hs Hu Hi. unfold doy_us.
  assert (Hb : ymd2ord y 1 1 + doy - 1 <= ymd2ord 9999 12 31).
  { unfold ymd2ord. rewrite year_start. pose proof (days_before_year_mono y 9999 ltac:(lia)) as Hmono.
    destruct (is_leap y); replace (days_before_month 9999 12) with 334 by (vm_compute; reflexivity); lia. }
  destruct (_ && _) eqn:E.
  - f_equal. rewrite (instant_unique _ _ _ _ _ _ Hi), (days_after_ord _ _ _ Hn). cbn [ord]. unfold us_per_sec. lia.
  - exfalso. revert E. apply eq_true_false_abs. repeat (apply andb_true_iff; split); apply Z.leb_le; lia.
Qed.

(** ** Patterns *)
Lemma pmatch_lit x p s : pmatch (plit x ++ p) (lit x ++ s) = pmatch p s.
Proof.
  unfold plit, lit. induction (list_ascii_of_string x) as [|c l IH]; [reflexivity|].
  cbn [map app pmatch]. rewrite ascii_eqb_refl. exact IH.
Qed.

Lemma pmatch_dig n z p s : pmatch ([PDig n] ++ p) (pad n z ++ s) =
  match pmatch p s with Some (g, r) => Some (pad n z :: g, r) | None => None end.
Proof.
  cbn [app pmatch]. rewrite firstn_pad, skipn_pad, pad_length, Nat.eqb_refl. cbn [andb].
  rewrite (proj2 (forallb_Forall _ _) (pad_digits n z)). reflexivity.
Qed.

Lemma pmatch_lit_inv x p s r : pmatch (plit x ++ p) s = Some r -> exists t, s = lit x ++ t.
Proof.
  unfold plit, lit. revert s. induction (list_ascii_of_string x) as [|c l IH]; intros s H; [exists s; reflexivity|].
  cbn [map app pmatch] in H. destruct s as [|y s]; [discriminate|].
  destruct (Ascii.eqb_spec c y) as [<-|]; [|discriminate]. destruct (IH s H) as [t ->]. exists t. reflexivity.
Qed.

Definition width (p : pat) : nat := match p with PLit _ => 1 | PDig n => n end.

Lemma pmatch_char p1 c p2 : forall s r, pmatch (p1 ++ PLit c :: p2) s = Some r ->
  nth_error s (list_sum (map width p1)) = Some c.
Proof.
  induction p1 as [|[x|n] p1 IH]; intros s r H; cbn [app pmatch map width] in *.
  - destruct s as [|y s]; [discriminate|]. destruct (Ascii.eqb_spec c y) as [<-|]; [|discriminate]. reflexivity.
  - destruct s as [|y s]; [discriminate|]. destruct (Ascii.eqb x y); [|discriminate]. cbn [list_sum fold_right]. exact (IH s r H).
  - destruct (_ && _) eqn:E; [|discriminate]. apply andb_true_iff in E. destruct E as [E _]. apply Nat.eqb_eq in E.
    destruct (pmatch (p1 ++ PLit c :: p2) (skipn n s)) as [r'|] eqn:E2; [|discriminate].
    apply IH in E2. unfold list_sum in *. cbn [fold_right].
    rewrite <- (firstn_skipn n s), nth_error_app2; rewrite E; [|lia].
    replace (n + fold_right Nat.add 0 (map width p1) - n)%nat with (fold_right Nat.add 0 (map width p1))%nat by lia. exact E2.
Qed.

Lemma search_here (A : Type) (m : str -> option A) s a : m s = Some a -> search m s = Ok a.
Proof. intros H. destruct s; cbn [search]; rewrite H; reflexivity. Qed.

Lemma search_skip (A : Type) (m : str -> option A) s : forall a, (forall a1 c a2, a = a1 ++ c :: a2 -> m ((c :: a2) ++ s) = None) ->
  search m (a ++ s) = search m s.
Proof.
  induction a as [|c a IH]; intros H; [reflexivity|]. cbn [app search].
  change (c :: a ++ s) with ((c :: a) ++ s). rewrite (H [] c a eq_refl). apply IH.
  intros a1 x a2 ->. apply (H (c :: a1) x a2). reflexivity.
Qed.

Lemma search_fixed (A : Type) (m : str -> option A) n c a b s : (forall t r, m t = Some r -> nth_error t n = Some c) ->
  ~ In c a -> ~ In c b -> len b = n -> search m (a ++ b ++ s) = search m (b ++ s).
Proof.
  intros Hm Ha Hb Hl. apply search_skip. intros a1 x a2 ->.
  destruct (m ((x :: a2) ++ b ++ s)) as [r|] eqn:E; [|reflexivity]. exfalso.
  apply Hm in E. rewrite app_assoc, nth_error_app1 in E by (rewrite app_length; cbn [List.length]; lia).
  apply nth_error_In in E. apply in_app_or in E. destruct E as [E|E]; [|contradiction].
  apply Ha. apply in_or_app. right. exact E.
Qed.

(** deciding that a literal is unbordered *)
Definition unborderedb (t : str) : bool :=
  forallb (fun n => negb (str_eqb (firstn n t) (skipn (len t - n) t))) (seq 1 (len t - 1)).
Lemma unborderedb_ok t : unborderedb t = true -> unbordered t.
Proof.
  intros H p q r E1 E2. destruct p as [|c p]; [left; reflexivity|right].
  destruct q as [|d q]; [reflexivity|exfalso].
  unfold unborderedb in H. rewrite forallb_forall in H.
  assert (L1 : len t = (S (len p) + S (len q))%nat) by (rewrite E1, app_length; reflexivity).
  assert (L2 : len t = (len r + S (len p))%nat) by (rewrite E2, app_length; reflexivity).
  specialize (H (S (len p))). rewrite in_seq in H. specialize (H ltac:(lia)).
  apply negb_true_iff, str_eqb_neq in H. apply H.
  rewrite E1 at 1. rewrite E2 at 2. replace (len t - S (len p))%nat with (len r) by lia.
  rewrite firstn_app, skipn_app, Nat.sub_diag, (skipn_all2 r) by lia. cbn [List.length skipn app].
  rewrite Nat.sub_diag. rewrite firstn_all2 by (cbn [List.length]; lia). cbn [firstn]. rewrite app_nil_r. reflexivity.
Qed.

Lemma digit_not_in c n z : is_digit c = false -> ~ In c (pad n z).
Proof. intros H Hin. pose proof (pad_digits n z) as Hd. rewrite Forall_forall in Hd. specialize (Hd c Hin). congruence. Qed.
