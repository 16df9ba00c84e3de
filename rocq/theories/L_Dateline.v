(** Lemmas for properties C60 (lines of files), C64, C65 (date line). *)
From Coq Require Import ZArith Reals Ascii String Bool Lia Lra List Sorted.
From Verif Require Import M_Py L_Base M_Str S_Str L_Str M_Ini M_Nmea M_ReadNav S_Nmea S_ReadNav L_ReadNav.
Import ListNotations.
Open Scope Z_scope.
Local Notation len := List.length.

(** ** Lines of a file *)
Lemma readlines_go_app l t cur : ~ In nl l -> readlines_go (l ++ nl :: t) cur = (rev cur ++ l ++ [nl]) :: readlines_go t [].
Proof.
  revert cur. induction l as [|c l IH]; intros cur Hn.
  - cbn [app readlines_go]. rewrite Ascii.eqb_refl. reflexivity.
  - cbn [app readlines_go]. destruct (Ascii.eqb_spec c nl) as [->|Hc]; [exfalso; apply Hn; left; reflexivity|].
    rewrite IH by (intros H; apply Hn; right; exact H). cbn [rev]. rewrite <- !app_assoc. reflexivity.
Qed.
Lemma readlines_go_last l cur : ~ In nl l -> readlines_go l cur = match rev cur ++ l with [] => [] | x => [x] end.
Proof.
  revert cur. induction l as [|c l IH]; intros cur Hn.
  - cbn [readlines_go]. rewrite app_nil_r. destruct cur as [|x cur]; [reflexivity|]. destruct (rev (x :: cur)) eqn:E; [|reflexivity].
    apply (f_equal (@len ascii)) in E. rewrite rev_length in E. discriminate.
  - cbn [readlines_go]. destruct (Ascii.eqb_spec c nl) as [->|Hc]; [exfalso; apply Hn; left; reflexivity|].
    rewrite IH by (intros H; apply Hn; right; exact H). cbn [rev]. rewrite <- app_assoc. reflexivity.
Qed.
Lemma readlines_lines text ls : file_lines text ls -> readlines text = ls.
Proof.
  unfold readlines. induction 1 as [|l Hn Hl|l t ls Hl _ IH].
  - reflexivity.
  - rewrite readlines_go_last by exact Hl. destruct l; [congruence|reflexivity].
  - rewrite readlines_go_app by exact Hl. rewrite IH. reflexivity.
Qed.
Lemma file_lines_go text : forall cur, ~ In nl cur -> file_lines (rev cur ++ text) (readlines_go text cur).
Proof.
  induction text as [|c text IH]; intros cur Hn.
  - rewrite app_nil_r. cbn [readlines_go]. destruct cur as [|x cur]; [constructor|]. constructor.
    + intros E. apply (f_equal (@len ascii)) in E. rewrite rev_length in E. discriminate.
    + intros H. apply Hn. apply in_rev. exact H.
  - cbn [readlines_go]. destruct (Ascii.eqb_spec c nl) as [->|Hc].
    + cbn [rev]. apply fl_line; [intros H; apply Hn; apply in_rev; exact H|]. apply (IH []). intros [].
    + replace (rev cur ++ c :: text) with (rev (c :: cur) ++ text) by (cbn [rev]; rewrite <- app_assoc; reflexivity).
      apply IH. intros [H|H]; [congruence|contradiction].
Qed.
Lemma lines_exist text : exists ls, file_lines text ls /\ readlines text = ls.
Proof. exists (readlines text). split; [apply (file_lines_go text []); intros []|reflexivity]. Qed.

(** ** Moving longitudes *)
Lemma count_tally (P : R -> Prop) (f : option R -> bool) l : (forall v, f (Some v) = true <-> P v) -> f None = false -> tally P l (count f l).
Proof.
  intros Hf Hn. unfold count. induction l as [|[v|] l IH]; cbn [filter]; [constructor| |].
  - destruct (f (Some v)) eqn:E; cbn [List.length]; [apply ta_yes|apply ta_no]; try exact IH; [apply Hf; exact E|].
    intros H. apply Hf in H. congruence.
  - rewrite Hn. apply ta_nan. exact IH.
Qed.
Lemma tally_fun P l n1 n2 : tally P l n1 -> tally P l n2 -> n1 = n2.
Proof.
  intros H. revert n2. induction H as [|x l n Hx _ IH|x l n Hx _ IH|l n _ IH]; intros n2 H2; inversion H2; subst; try contradiction; try reflexivity.
  - f_equal. apply IH. assumption.
  - apply IH. assumption.
  - apply IH. assumption.
Qed.

Lemma Rmod_pos v : (exists k, Rmod v 180 = v + 180 * IZR k)%R /\ (0 <= Rmod v 180 < 180)%R.
Proof.
  unfold Rmod. destruct (base_Int_part (v / 180)) as [H1 H2]. split.
  - exists (- Int_part (v / 180))%Z. rewrite opp_IZR. ring.
  - assert (E : (v = 180 * (v / 180))%R) by field. set (q := (v / 180)%R) in *. clearbody q. subst v. lra.
Qed.
Lemma Rmod_neg v : (exists k, Rmod v (-180) = v + 180 * IZR k)%R /\ (-180 < Rmod v (-180) <= 0)%R.
Proof.
  unfold Rmod. destruct (base_Int_part (v / (-180))) as [H1 H2]. split.
  - exists (Int_part (v / (-180)))%Z. ring.
  - assert (E : (v = - 180 * (v / (-180)))%R) by field. set (q := (v / (-180))%R) in *. clearbody q. subst v. lra.
Qed.

Lemma shift180_moved l : moved l (shift180 l).
Proof.
  unfold shift180. cbv zeta.
  set (lneg := fun x => gt_b (Some 0%R) x). set (lpos := fun x => gt_b x (Some 0%R)).
  assert (Hn : forall v, lneg (Some v) = true <-> (v < 0)%R) by (intros v; unfold lneg, gt_b; destruct (Rlt_dec v 0); split; try tauto; discriminate).
  assert (Hp : forall v, lpos (Some v) = true <-> (0 < v)%R) by (intros v; unfold lpos, gt_b; destruct (Rlt_dec 0 v); split; try tauto; discriminate).
  pose proof (count_tally _ lneg l Hn eq_refl) as Tn. pose proof (count_tally _ lpos l Hp eq_refl) as Tp.
  destruct (Nat.ltb_spec (count lneg l) (count lpos l)) as [H|H].
  - apply (mv_east _ _ _ _ Tn Tp H). clear Tn Tp H. induction l as [|[v|] l IH]; cbn [map]; constructor; try exact IH.
    + change (gt_b (Some 0%R) (Some v)) with (lneg (Some v)). destruct (lneg (Some v)) eqn:E.
      * apply Hn in E. destruct (Rmod_pos v) as [[k Ek] Hr]. cbn [option_map]. apply (me_move _ _ (1 + k)); [exact E|lra|rewrite Ek, plus_IZR; lra].
      * apply me_same. apply Rnot_lt_le. intros Hlt. apply Hn in Hlt. congruence.
    + constructor.
  - apply (mv_west _ _ _ _ Tn Tp H). clear Tn Tp H. induction l as [|[v|] l IH]; cbn [map]; constructor; try exact IH.
    + change (gt_b (Some v) (Some 0%R)) with (lpos (Some v)). destruct (lpos (Some v)) eqn:E.
      * apply Hp in E. destruct (Rmod_neg v) as [[k Ek] Hr]. cbn [option_map]. apply (mw_move _ _ (-1 + k)); [exact E|lra|rewrite Ek, plus_IZR; lra].
      * apply mw_same. apply Rnot_lt_le. intros Hlt. apply Hp in Hlt. congruence.
    + constructor.
Qed.

(** ** Jumps *)
Lemma filter_sorted (f : nat -> bool) l : StronglySorted lt l -> StronglySorted lt (filter f l).
Proof.
  induction 1 as [|a l Hs IH Ha]; cbn [filter]; [constructor|]. destruct (f a); [|exact IH]. constructor; [exact IH|].
  rewrite Forall_forall in *. intros x Hx. apply filter_In in Hx. apply Ha. tauto.
Qed.
Lemma seq_sorted n : forall a, StronglySorted lt (seq a n).
Proof. induction n as [|n IH]; intros a; cbn [seq]; constructor; [apply IH|]. apply Forall_forall. intros x Hx. apply in_seq in Hx. lia. Qed.
Lemma jumps_all l : all_jumps l (jumps l).
Proof. split; [apply filter_sorted, seq_sorted|]. intros i. apply jumps_in. Qed.

Lemma sorted_unique (A : Type) (lt' : A -> A -> Prop) (Hirr : forall a, ~ lt' a a) (Hasym : forall a b, lt' a b -> ~ lt' b a) l1 l2 :
  StronglySorted lt' l1 -> StronglySorted lt' l2 -> (forall x, In x l1 <-> In x l2) -> l1 = l2.
Proof.
  intros H1. revert l2. induction H1 as [|a l1 Hs IH Ha]; intros l2 H2 Heq.
  - destruct l2 as [|b l2]; [reflexivity|]. exfalso. apply (in_nil (a := b)). apply Heq. left. reflexivity.
  - destruct l2 as [|b l2]; [exfalso; apply (in_nil (a := a)); apply Heq; left; reflexivity|].
    inversion H2 as [|b' l2' Hs2 Hb]; subst. rewrite Forall_forall in Ha, Hb.
    assert (Eab : a = b).
    { destruct (proj1 (Heq a) (or_introl eq_refl)) as [E|E]; [symmetry; exact E|].
      destruct (proj2 (Heq b) (or_introl eq_refl)) as [E'|E']; [exact E'|]. exfalso. exact (Hasym _ _ (Ha _ E') (Hb _ E)). }
    subst b. f_equal. apply IH; [exact Hs2|]. intros x. split; intros Hx.
    + destruct (proj1 (Heq x) (or_intror Hx)) as [->|E]; [exfalso; exact (Hirr _ (Ha _ Hx))|exact E].
    + destruct (proj2 (Heq x) (or_intror Hx)) as [->|E]; [exfalso; exact (Hirr _ (Hb _ Hx))|exact E].
Qed.
Lemma all_jumps_fun l js js' : all_jumps l js -> all_jumps l js' -> js = js'.
Proof.
  intros [H1 H2] [H3 H4]. apply (sorted_unique _ lt); try assumption; [intros a; lia|intros a b; lia|].
  intros x. rewrite H2, H4. reflexivity.
Qed.

(** ** Bridging *)
Definition flat (pairs : list (nat * nat)) : list nat := flat_map (fun ij => [fst ij; snd ij]) pairs.
Lemma even_pairs l : Nat.even (len l) = true -> exists pairs, l = flat pairs /\ every 2 0 l = map fst pairs.
Proof.
  revert l. fix IH 1. intros [|a [|b l]] H; [exists []; split; reflexivity|discriminate|].
  destruct (IH l H) as [pairs [E1 E2]]. exists ((a, b) :: pairs). split; [cbn; f_equal; f_equal; exact E1|].
  cbn [every map fst Nat.sub]. rewrite E2. reflexivity.
Qed.

Lemma bridge_val l i : (S (S i) < len l)%nat -> forall k, nth_error (bridge l i) k = if Nat.eqb k (S i) then Some (mid (nth i l None) (nth (S (S i)) l None)) else nth_error l k.
Proof.
  intros H k. unfold bridge. rewrite Nat.add_1_r. replace (i + 2)%nat with (S (S i)) by lia.
  replace (omap2 _ (nth i l None) (nth (S (S i)) l None)) with (mid (nth i l None) (nth (S (S i)) l None)) by reflexivity.
  destruct (lt_dec k (len l)) as [Hk|Hk].
  - rewrite (nth_error_nth' (upd l (S i) _) None) by (rewrite upd_length; exact Hk). rewrite nth_upd.
    rewrite (nth_error_nth' l None) by exact Hk. destruct (Nat.eqb_spec k (S i)) as [->|Hne].
    + destruct (Nat.ltb_spec (S i) (len l)); [|lia]. reflexivity.
    + reflexivity.
  - rewrite (proj2 (nth_error_None _ k)) by (rewrite upd_length; lia). rewrite (proj2 (nth_error_None l k)) by lia.
    destruct (Nat.eqb_spec k (S i)); [lia|reflexivity].
Qed.

Lemma bridge_nth l i k : (S (S i) < len l)%nat -> k <> S i -> nth k (bridge l i) None = nth k l None.
Proof.
  intros H Hk. destruct (lt_dec k (len l)) as [Hl|Hl].
  - apply nth_error_nth. rewrite (bridge_val l i H). destruct (Nat.eqb_spec k (S i)); [contradiction|]. apply nth_error_nth'. exact Hl.
  - rewrite !nth_overflow; [reflexivity|lia|unfold bridge; rewrite upd_length; lia].
Qed.

Lemma fold_bridged pairs : forall l, StronglySorted lt (flat pairs) -> (forall i, In i (flat pairs) -> (S i < len l)%nat) ->
  bridged l pairs (fold_left bridge (map fst pairs) l).
Proof.
  induction pairs as [|[i j] pairs IH]; intros l Hs Hb.
  - split; [reflexivity|]. split; [intros ? ? []|]. intros k _. reflexivity.
  - cbn [map fst fold_left]. cbn in Hs. apply StronglySorted_inv in Hs. destruct Hs as [Hs' Hf]. apply StronglySorted_inv in Hs'. destruct Hs' as [Hs2 Hf2].
    rewrite Forall_forall in Hf, Hf2.
    assert (Hij : (i < j)%nat) by (apply Hf; left; reflexivity).
    assert (Hjl : (S j < len l)%nat) by (apply Hb; right; left; reflexivity).
    assert (Hl : len (bridge l i) = len l) by apply upd_length.
    assert (Hfst : forall a b, In (a, b) pairs -> (j < a)%nat).
    { intros a b Hin. apply Hf2. apply in_flat_map. exists (a, b). split; [exact Hin|left; reflexivity]. }
    destruct (IH (bridge l i) Hs2) as [L [B1 B2]].
    { intros k Hk. rewrite Hl. apply Hb. right. right. exact Hk. }
    split; [rewrite L; exact Hl|]. split.
    + intros a b [E|Hin].
      * injection E as <- <-. split; [lia|]. rewrite B2; [|intros a b Hin; apply Hfst in Hin; lia].
        rewrite (bridge_val l i) by lia. rewrite Nat.eqb_refl. reflexivity.
      * destruct (B1 a b Hin) as [B3 B4]. rewrite Hl in B3. split; [exact B3|]. rewrite B4. apply Hfst in Hin.
        rewrite !bridge_nth by lia. reflexivity.
    + intros k Hk. rewrite B2 by (intros a b Hin; apply (Hk a b); right; exact Hin).
      rewrite (bridge_val l i) by lia. destruct (Nat.eqb_spec k (S i)) as [->|_]; [|reflexivity]. exfalso. apply (Hk i j); [left; reflexivity|reflexivity].
Qed.

Lemma clean_spec l : date_line_cleaned l (clean_180cross l).
Proof.
  unfold clean_180cross. cbv zeta. pose proof (shift180_moved l) as Hm. pose proof (jumps_all (shift180 l)) as Hj.
  destruct (Nat.even (len (jumps (shift180 l)))) eqn:E.
  - destruct (even_pairs _ E) as [pairs [E1 E2]]. rewrite E2. apply (dl_even _ _ (shift180 l) pairs Hm); [fold (flat pairs); rewrite <- E1; exact Hj|].
    apply fold_bridged; [rewrite <- E1; apply Hj|]. intros i Hi. rewrite <- E1 in Hi. apply (proj2 Hj) in Hi.
    destruct Hi as [a [b [_ [H _]]]]. apply nth_error_Some. rewrite H. discriminate.
  - destruct (Nat.Even_or_Odd (len (jumps (shift180 l)))) as [H|[n H]]; [apply Nat.even_spec in H; congruence|].
    apply (dl_odd _ _ _ n Hm Hj H).
Qed.

(** ** Tracks near the antimeridian *)
Lemma step180 (v w w' : R) k k' : (w = v + 180 * IZR k)%R -> (w' = v + 180 * IZR k')%R -> (Rabs (w' - w) < 180)%R -> w' = w.
Proof.
  intros -> -> H. assert (E : (Rabs (IZR (k' - k)) < 1)%R).
  { replace (v + 180 * IZR k' - (v + 180 * IZR k))%R with (180 * IZR (k' - k))%R in H by (rewrite minus_IZR; ring).
    rewrite Rabs_mult, (Rabs_right 180) in H by lra. lra. }
  rewrite <- abs_IZR in E. apply lt_IZR in E. assert (k' = k) by lia. subst. reflexivity.
Qed.
Lemma reported_east u lon w : reported u lon -> moved_east lon w -> w = u.
Proof.
  intros H Hm. destruct u as [u|], lon as [v|]; try destruct H; [|inversion Hm; reflexivity].
  inversion Hm as [|v' Hv E1 E2|v' w' k Hv Hw Hk E1 E2]; subst.
  - f_equal. lra.
  - f_equal. apply (step180 v _ _ 2 k); [lra|reflexivity|]. apply Rabs_def1; lra.
Qed.
Lemma reported_west u lon w : reported u lon -> moved_west lon w -> w = option_map (fun x => x - 360)%R u.
Proof.
  intros H Hm. destruct u as [u|], lon as [v|]; try destruct H; [|inversion Hm; reflexivity]. cbn [option_map].
  inversion Hm as [|v' Hv E1 E2|v' w' k Hv Hw Hk E1 E2]; subst.
  - f_equal. lra.
  - f_equal. apply (step180 v _ _ (-2) k); [lra|reflexivity|]. apply Rabs_def1; lra.
Qed.

Lemma Forall2_comp (A B C : Type) (P : A -> B -> Prop) (Q : B -> C -> Prop) (S : A -> C -> Prop) l1 l2 l3 :
  (forall a b c, P a b -> Q b c -> S a c) -> Forall2 P l1 l2 -> Forall2 Q l2 l3 -> Forall2 S l1 l3.
Proof.
  intros HS H. revert l3. induction H as [|a b l1 l2 Hab _ IH]; intros l3 H3; inversion H3; subst; constructor; [eapply HS; eassumption|].
  apply IH. assumption.
Qed.
Lemma Forall2_map_eq (A B : Type) (f : A -> B) l l' : Forall2 (fun a b => b = f a) l l' -> l' = map f l.
Proof. induction 1; [reflexivity|]. cbn [map]. congruence. Qed.

Lemma smooth_shift c u : smooth u -> smooth (map (option_map (fun x => x - c)%R) u).
Proof.
  intros H i a b Ha Hb. rewrite nth_error_map in Ha, Hb.
  destruct (nth_error u i) as [[x|]|] eqn:Ea; try discriminate. destruct (nth_error u (S i)) as [[y|]|] eqn:Eb; try discriminate.
  cbn in Ha, Hb. assert (a = x - c)%R by congruence. assert (b = y - c)%R by congruence. subst. specialize (H i x y Ea Eb).
  replace (y - c - (x - c))%R with (y - x)%R by ring. exact H.
Qed.

Lemma moved_reported u lon m : Forall2 reported u lon -> moved lon m ->
  (exists n p, tally (fun v => v < 0)%R lon n /\ tally (fun v => 0 < v)%R lon p /\
     ((n < p)%nat /\ m = u \/ (p <= n)%nat /\ m = map (option_map (fun x => x - 360)%R) u)).
Proof.
  intros Hr [n p Tn Tp Hlt Hm|n p Tn Tp Hle Hm]; exists n, p; (split; [exact Tn|split; [exact Tp|]]).
  - left. split; [exact Hlt|]. rewrite <- (map_id u) at 1. apply (Forall2_map_eq _ _ (fun x => x)).
    eapply Forall2_comp; [|exact Hr|exact Hm]. exact reported_east.
  - right. split; [exact Hle|]. apply Forall2_map_eq. eapply Forall2_comp; [|exact Hr|exact Hm]. exact reported_west.
Qed.

Lemma smooth_no_jump l i : smooth l -> ~ jump l i.
Proof. intros H [a [b [Ha [Hb Hlt]]]]. specialize (H i a b Ha Hb). lra. Qed.

Lemma cleaned_smooth l l' : date_line_cleaned l l' -> (forall m, moved l m -> smooth m) -> moved l l'.
Proof.
  intros [js n Hm Hj Hl|m pairs Hm Hj Hb] Hs; [exact Hm|].
  destruct pairs as [|[i j] pairs].
  - replace l' with m; [exact Hm|]. destruct Hb as [_ [_ Hb]]. apply nth_error_ext. intros k. symmetry. apply Hb. intros i j [].
  - exfalso. apply (smooth_no_jump m i (Hs m Hm)). apply (proj2 Hj). left. reflexivity.
Qed.
