(** Properties C90 and C91: envelope of the ship's motion and its coherence with the monitors (mru_coherence.py). *)
From Coq Require Import List Reals Arith Lia Lra Bool.
From Verif Require Import M_Py M_Fft M_Four M_Coh S_Base S_Coh L_Base L_Np L_Fft L_Coh.
Import ListNotations.
Open Scope R_scope.

(** ** C90 *)
Lemma fold_omax t h : (exists i, (i < length (h :: t))%nat /\ nth i (h :: t) None = None) -> fold_left omax t h = None.
Proof.
  revert h. induction t as [|a t IH]; intros h [i [Hi E]].
  - destruct i; [exact E|cbn in Hi; lia].
  - cbn [fold_left]. apply IH. destruct i as [|[|i]].
    + cbn in E. subst h. exists O. split; [cbn; lia|reflexivity].
    + cbn in E. subst a. exists O. split; [cbn; lia|]. cbn. destruct h; reflexivity.
    + exists (S i). split; [cbn in *; lia|exact E].
Qed.
Lemma fold_omax_some t h : (forall i, (i < length (h :: t))%nat -> nth i (h :: t) None <> None) ->
  exists m, fold_left omax t h = Some m /\ (forall i, (i < length (h :: t))%nat -> exists v, nth i (h :: t) None = Some v /\ v <= m) /\ exists i, (i < length (h :: t))%nat /\ nth i (h :: t) None = Some m.
Proof.
  revert h. induction t as [|a t IH]; intros h H.
  - destruct h as [m|]; [|exfalso; apply (H O); [cbn; lia|reflexivity]]. exists m. split; [reflexivity|]. split.
    + intros [|i] Hi; [exists m; split; [reflexivity|lra]|cbn in Hi; lia].
    + exists O. split; [cbn; lia|reflexivity].
  - destruct h as [x|]; [|exfalso; apply (H O); [cbn; lia|reflexivity]]. destruct a as [y|]; [|exfalso; apply (H 1%nat); [cbn; lia|reflexivity]].
    destruct (IH (Some (Rmax x y))) as [m [E [U A]]].
    { intros [|i] Hi; [discriminate|apply (H (S (S i))); cbn in *; lia]. }
    cbn [fold_left omax]. exists m. split; [exact E|]. destruct (U O ltac:(cbn; lia)) as [z [Ez Hz]]. injection Ez as <-. pose proof (Rmax_l x y) as L1. pose proof (Rmax_r x y) as L2. split.
    + intros [|[|i]] Hi; [exists x; split; [reflexivity|lra]|exists y; split; [reflexivity|lra]|]. apply (U (S i)). cbn in *; lia.
    + destruct A as [[|i] [Hi Ei]].
      * cbn in Ei. injection Ei as <-. destruct (Rle_dec x y) as [Q|Q]; [exists 1%nat; rewrite Rmax_right by exact Q|exists O; rewrite Rmax_left by lra]; (split; [cbn; lia|reflexivity]).
      * exists (S (S i)). split; [cbn in *; lia|exact Ei].
Qed.
Lemma rolling_length w l : length (rolling_max w l) = length l.
Proof. unfold rolling_max. rewrite map_length, seq_length. reflexivity. Qed.
Lemma rolling_complete l i : (i < length l)%nat -> complete l i -> exists m, is_max l (i - 999) i m /\ nth i (rolling_max 1000 l) None = Some m.
Proof.
  intros Hi [C1 C2]. unfold rolling_max. rewrite nth_map_seq by exact Hi. destruct (Nat.ltb_spec (S i) 1000) as [Q|_]; [lia|].
  assert (L : length (slice l (S i - 1000) (S i)) = 1000%nat) by (rewrite slice_length; lia).
  assert (E : forall k, (k < 1000)%nat -> nth k (slice l (S i - 1000) (S i)) None = nth (i - 999 + k) l None) by (intros k Hk; rewrite nth_slice by lia; f_equal; lia).
  remember (slice l (S i - 1000) (S i)) as sl eqn:Esl. clear Esl. destruct sl as [|h t]; [cbn [length] in L; lia|].
  destruct (fold_omax_some t h) as [m [F [U [k [Hk A]]]]].
  { intros k Hk. rewrite L in Hk. rewrite E by exact Hk. apply C2. lia. }
  exists m. split; [|exact F]. rewrite L in U, Hk. split.
  - intros k' Hk'. destruct (U (k' - (i - 999))%nat ltac:(lia)) as [v [Ev Hv]]. rewrite E in Ev by lia. exists v. split; [|exact Hv]. rewrite <- Ev. f_equal. lia.
  - exists (i - 999 + k)%nat. split; [lia|]. rewrite <- E by exact Hk. exact A.
Qed.
Lemma rolling_incomplete l i : (i < length l)%nat -> ~ complete l i -> nth i (rolling_max 1000 l) None = None.
Proof.
  intros Hi H. unfold rolling_max. rewrite nth_map_seq by exact Hi. destruct (Nat.ltb_spec (S i) 1000) as [Q|Q]; [reflexivity|].
  assert (L : length (slice l (S i - 1000) (S i)) = 1000%nat) by (rewrite slice_length; lia).
  assert (E : forall k, (k < 1000)%nat -> nth k (slice l (S i - 1000) (S i)) None = nth (i - 999 + k) l None) by (intros k Hk; rewrite nth_slice by lia; f_equal; lia).
  remember (slice l (S i - 1000) (S i)) as sl eqn:Esl. clear Esl. destruct sl as [|h t]; [cbn [length] in L; lia|].
  apply fold_omax. rewrite L.
  assert (D : forall m, (exists k, (k < m)%nat /\ nth (i - 999 + k) l None = None) \/ forall k, (k < m)%nat -> nth (i - 999 + k) l None <> None).
  { induction m as [|m [[k [Hk Ek]]|IH]]; [right; intros k Hk; lia|left; exists k; split; [lia|exact Ek]|].
    destruct (nth (i - 999 + m) l None) as [v|] eqn:Em; [right|left; exists m; split; [lia|exact Em]].
    intros k Hk. destruct (Nat.eq_dec k m) as [->|Nk]; [congruence|apply IH; lia]. }
  destruct (D 1000%nat) as [[k [Hk Ek]]|A]; [exists k; split; [exact Hk|rewrite E by exact Hk; exact Ek]|].
  exfalso. apply H. split; [lia|]. intros j Hj. specialize (A (j - (i - 999))%nat ltac:(lia)). replace (i - 999 + (j - (i - 999)))%nat with j in A by lia. exact A.
Qed.

Definition le_x (x : R) := fun t : R => if Rle_dec t x then true else false.
Lemma count_le l x j : ordered l -> (j < length l)%nat -> nth j l 0 <= x -> ((S j < length l)%nat -> x < nth (S j) l 0) -> length (filter (le_x x) l) = S j.
Proof.
  revert j. induction l as [|a l IH]; intros j Od Hj H1 H2; [cbn in Hj; lia|].
  assert (O' : ordered l) by (intros p q Hpq; apply (Od (S p) (S q)); cbn; lia).
  assert (Ha : a <= x) by (pose proof (Od 0%nat j ltac:(lia)) as Q; change (nth 0 (a :: l) 0) with a in Q; lra).
  cbn [filter]. unfold le_x at 1. destruct (Rle_dec a x) as [_|Q]; [|lra]. cbn [length]. f_equal. destruct j as [|j].
  - destruct l as [|b l]; [reflexivity|]. specialize (H2 ltac:(cbn; lia)). cbn [nth] in H2.
    assert (Z : forall l' : list R, (forall t, In t l' -> b <= t) -> length (filter (le_x x) l') = 0%nat).
    { induction l' as [|c l' IH']; intros Hc; [reflexivity|]. cbn [filter]. unfold le_x at 1. destruct (Rle_dec c x) as [Q|_]; [specialize (Hc c (or_introl eq_refl)); lra|]. apply IH'. intros t Ht. apply Hc. right. exact Ht. }
    apply Z. intros t Ht. destruct (In_nth _ _ 0 Ht) as [p [Hp <-]]. exact (O' 0%nat p ltac:(lia)).
  - apply IH; [exact O'|cbn in Hj; lia|exact H1|]. intros Hl. apply H2. cbn; lia.
Qed.
Lemma last_nth0 (A : Type) (l : list A) d : last l d = nth (length l - 1) l d.
Proof. induction l as [|a [|b l] IH]; try reflexivity. change (last (a :: b :: l) d) with (last (b :: l) d). rewrite IH. cbn [length]. replace (S (S (length l)) - 1)%nat with (S (S (length l) - 1)) by lia. reflexivity. Qed.

Lemma np_interp_at xp fp x j : length fp = length xp -> ordered xp -> (j < length xp)%nat -> nth j xp 0 <= x -> ((S j < length xp)%nat -> x < nth (S j) xp 0) ->
  np_interp xp fp x = if (S j =? length xp)%nat then nth j fp None else if Req_EM_T (nth j xp 0) x then nth j fp None
    else match nth j fp None, nth (S j) fp None with
         | Some a, Some b => Some ((b - a) / (nth (S j) xp 0 - nth j xp 0) * (x - nth j xp 0) + a)
         | _, _ => None end.
Proof.
  intros L Od Hj H1 H2. unfold np_interp. rewrite !last_nth0, L. pose proof (count_le xp x j Od Hj H1 H2) as CL. unfold le_x in CL. cbv zeta. rewrite CL. replace (S j - 1)%nat with j by lia.
  pose proof (Od 0%nat j ltac:(lia)) as Q0.
  destruct (Rlt_dec (nth (length xp - 1) xp 0) x) as [Q1|Q1].
  - assert (E : S j = length xp). { destruct (Nat.eq_dec (S j) (length xp)) as [E|E]; [exact E|]. specialize (H2 ltac:(lia)). pose proof (Od (S j) (length xp - 1)%nat ltac:(lia)). lra. }
    rewrite E, Nat.eqb_refl. f_equal. lia.
  - destruct (Rlt_dec x (nth 0 xp 0)); [lra|]. destruct (Nat.eqb_spec j (length xp - 1)) as [E|E]; destruct (Nat.eqb_spec (S j) (length xp)); try lia; reflexivity.
Qed.

(** C90: what is compared with a monitor at time [t] is the largest of the last 1000 samples of the motion; between two samples of
    the motion it is on the straight line between the two maxima; it is 0 where a sample is missing among the last 1000, and
    before the motion was recorded. *)
Theorem C90_envelope : forall tsec mt mv, length mv = length mt -> mt <> [] -> ordered mt ->
  exists r, mru_interp tsec mt mv = Ok r /\ length r = length tsec /\
  forall i t, (i < length tsec)%nat -> nth i tsec 0 = t ->
  (t < nth 0 mt 0 -> nth i r 0 = 0) /\
  forall j, (j < length mt)%nat -> nth j mt 0 <= t -> ((S j < length mt)%nat -> t < nth (S j) mt 0) ->
  (t = nth j mt 0 \/ S j = length mt ->
     (complete mv j -> exists m, is_max mv (j - 999) j m /\ nth i r 0 = m) /\
     (~ complete mv j -> nth i r 0 = 0)) /\
  (nth j mt 0 < t -> (S j < length mt)%nat ->
     (complete mv j -> complete mv (S j) -> exists m m', is_max mv (j - 999) j m /\ is_max mv (j - 998) (S j) m' /\
        nth i r 0 = on_line (nth j mt 0) m (nth (S j) mt 0) m' t) /\
     (~ (complete mv j /\ complete mv (S j)) -> nth i r 0 = 0)).
Proof.
  intros tsec mt mv L NE Od. assert (Lp : (0 < length mt)%nat) by (destruct mt; [congruence|cbn; lia]).
  eexists. split; [unfold mru_interp; rewrite rolling_length, L; destruct (Nat.eqb_spec (length mt) 0) as [Q|_]; [lia|]; rewrite Nat.eqb_refl; reflexivity|].
  split; [apply map_length|]. intros i t Hi Et. rewrite (nth_map _ _ _ tsec i 0 0) by exact Hi. cbv beta. rewrite Et.
  assert (C : forall j, (j < length mt)%nat -> ~ complete mv j -> nth j (rolling_max 1000 mv) None = None) by (intros j Hj; apply rolling_incomplete; lia).
  split.
  - intros H. pose proof (Od 0%nat (length mt - 1)%nat ltac:(lia)) as Q. unfold np_interp. rewrite (last_nth0 _ mt). destruct (Rlt_dec (nth (length mt - 1) mt 0) t); [lra|]. destruct (Rlt_dec t (nth 0 mt 0)) as [_|Q']; [|lra].
    rewrite C; [reflexivity|exact Lp|]. intros [Q' _]. lia.
  - intros j Hj H1 H2.
    rewrite (np_interp_at mt _ t j) by (rewrite ?rolling_length; assumption). split.
    + intros H3. assert (E : (if (S j =? length mt)%nat then nth j (rolling_max 1000 mv) None else if Req_EM_T (nth j mt 0) t then nth j (rolling_max 1000 mv) None
       else match nth j (rolling_max 1000 mv) None, nth (S j) (rolling_max 1000 mv) None with
         | Some a, Some b => Some ((b - a) / (nth (S j) mt 0 - nth j mt 0) * (t - nth j mt 0) + a)
         | _, _ => None end) = nth j (rolling_max 1000 mv) None).
      { destruct (Nat.eqb_spec (S j) (length mt)) as [E|E]; [reflexivity|]. destruct (Req_EM_T (nth j mt 0) t) as [_|E']; [reflexivity|]. destruct H3 as [H3|H3]; [congruence|lia]. }
      rewrite E. split.
      * intros Cj. destruct (rolling_complete mv j ltac:(lia) Cj) as [m [Hm Em]]. exists m. split; [exact Hm|]. rewrite Em. reflexivity.
      * intros Cj. rewrite C by assumption. reflexivity.
    + intros H3 H4. destruct (Nat.eqb_spec (S j) (length mt)) as [E|_]; [lia|]. destruct (Req_EM_T (nth j mt 0) t) as [E|_]; [lra|]. split.
      * intros Cj Cs. destruct (rolling_complete mv j ltac:(lia) Cj) as [m [Hm Em]]. destruct (rolling_complete mv (S j) ltac:(lia) Cs) as [m' [Hm' Em']].
        exists m, m'. split; [exact Hm|]. split; [replace (j - 998)%nat with (S j - 999)%nat by lia; exact Hm'|]. rewrite Em, Em'. unfold on_line. specialize (H2 H4). field. lra.
      * intros Cn. destruct (nth j (rolling_max 1000 mv) None) as [a|] eqn:Ea; [|reflexivity]. destruct (nth (S j) (rolling_max 1000 mv) None) as [b|] eqn:Eb; [|reflexivity].
        exfalso. apply Cn. assert (D : forall k, (k < length mt)%nat -> nth k (rolling_max 1000 mv) None <> None -> complete mv k).
        { intros k Hk Hn. unfold complete. split.
          - destruct (le_lt_dec 999 k) as [Q|Q]; [exact Q|]. exfalso. apply Hn. apply C; [exact Hk|]. intros [Q' _]. lia.
          - intros p Hp Ep. apply Hn. apply C; [exact Hk|]. intros [_ Q']. exact (Q' p Hp Ep). }
        split; apply D; try lia; congruence.
Qed.
Print Assumptions C90_envelope.

(** C90: the envelope is nowhere below the motion it covers. *)
Theorem C90_covers : forall tsec mt mv r i j t, length mv = length mt -> ordered mt -> mru_interp tsec mt mv = Ok r ->
  (i < length tsec)%nat -> nth i tsec 0 = t -> (S j < length mt)%nat -> nth j mt 0 <= t < nth (S j) mt 0 -> complete mv j -> complete mv (S j) ->
  (forall k v, (j - 998 <= k <= j)%nat -> nth k mv None = Some v -> v <= nth i r 0) /\
  exists k v, (j - 999 <= k <= S j)%nat /\ nth k mv None = Some v /\ nth i r 0 <= v.
Proof.
  intros tsec mt mv r i j t L Od E Hi Et Hj Ht Cj Cs. assert (NE : mt <> []) by (destruct mt; [cbn in Hj; lia|discriminate]).
  destruct (C90_envelope tsec mt mv L NE Od) as [r' [E' [_ H]]]. assert (r' = r) by congruence. subst r'. clear E E'.
  destruct (H i t Hi Et) as [_ H']. destruct (H' j ltac:(lia) (proj1 Ht) (fun _ => proj2 Ht)) as [H1 H2]. clear H H'.
  destruct (Rle_lt_or_eq_dec _ _ (proj1 Ht)) as [Q|Q].
  - destruct (H2 Q Hj) as [H3 _]. destruct (H3 Cj Cs) as [m [m' [[U [k [Hk Ek]]] [[U' [k' [Hk' Ek']]] Er]]]]. rewrite Er. unfold on_line.
    set (p := (nth (S j) mt 0 - t) / (nth (S j) mt 0 - nth j mt 0)). set (q := (t - nth j mt 0) / (nth (S j) mt 0 - nth j mt 0)).
    assert (P : 0 < p) by (apply Rdiv_lt_0_compat; lra). assert (P' : 0 < q) by (apply Rdiv_lt_0_compat; lra). assert (S1 : p + q = 1) by (unfold p, q; field; lra). clearbody p q. split.
    + intros z v Hz Ez. destruct (U z ltac:(lia)) as [w [Ew Hw]]. destruct (U' z ltac:(lia)) as [w' [Ew' Hw']]. assert (w = v) by congruence. assert (w' = v) by congruence. subst w w'. nra.
    + destruct (Rle_dec m m') as [M|M]; [exists k', m'|exists k, m]; (split; [lia|split; [assumption|nra]]).
  - destruct (H1 (or_introl (eq_sym Q))) as [H3 _]. destruct (H3 Cj) as [m [[U [k [Hk Ek]]] Er]]. rewrite Er. split.
    + intros z v Hz Ez. destruct (U z ltac:(lia)) as [w [Ew Hw]]. assert (w = v) by congruence. lra.
    + exists k, m. split; [lia|]. split; [exact Ek|lra].
Qed.
Print Assumptions C90_covers.

Definition ramp_times : list R := map INR (seq 0 1001).
Definition ramp : list (option R) := map (fun i => Some (INR i)) (seq 0 1001).
Lemma ramp_complete j : (999 <= j <= 1000)%nat -> complete ramp j.
Proof. intros H. split; [lia|]. intros i Hi. unfold ramp. rewrite nth_map_seq by lia. discriminate. Qed.
Lemma ramp_max j m : (j <= 1000)%nat -> is_max ramp (j - 999) j m -> m = INR j.
Proof.
  intros Hj [U [k [Hk E]]]. unfold ramp in E. rewrite nth_map_seq in E by lia. injection E as <-. destruct (U j ltac:(lia)) as [v [Ev Hv]]. unfold ramp in Ev. rewrite nth_map_seq in Ev by lia. injection Ev as <-.
  assert (INR k <= INR j) by (apply le_INR; lia). lra.
Qed.
Lemma ramp_ordered : ordered ramp_times.
Proof. intros a b H. unfold ramp_times in *. rewrite map_length, seq_length in H. rewrite !nth_map_seq by lia. apply le_INR. lia. Qed.
Example C90_envelope_case : exists r, mru_interp [-5; 500; 999; INR 999 + 1 / 2; INR 1000 + 7] ramp_times ramp = Ok r /\ r = [0; 0; INR 999; INR 999 + 1 / 2; INR 1000].
Proof.
  assert (LT : length ramp_times = 1001%nat) by (unfold ramp_times; rewrite map_length, seq_length; reflexivity).
  assert (LR : length ramp = 1001%nat) by (unfold ramp; rewrite map_length, seq_length; reflexivity).
  assert (T : forall j, (j < 1001)%nat -> nth j ramp_times 0 = INR j) by (intros j Hj; unfold ramp_times; rewrite nth_map_seq by exact Hj; reflexivity).
  destruct (C90_envelope [-5; 500; 999; INR 999 + 1 / 2; INR 1000 + 7] ramp_times ramp) as [r [E [Lr H]]]; [congruence|intros Q; rewrite Q in LT; discriminate|exact ramp_ordered|].
  exists r. split; [exact E|]. clear E. rewrite LT in H.
  assert (I999 : INR 999 = 999) by (rewrite INR_IZR_INZ; reflexivity). assert (I1000 : INR 1000 = 1000) by (rewrite INR_IZR_INZ; reflexivity). assert (I500 : INR 500 = 500) by (rewrite INR_IZR_INZ; reflexivity). assert (I501 : INR 501 = 501) by (rewrite INR_IZR_INZ; reflexivity).
  apply (list_eq_nth R) with (d := 0); [exact Lr|]. rewrite Lr. intros i Hi. destruct i as [|[|[|[|[|i]]]]]; [| | | | |cbn in Hi; lia].
  - destruct (H 0%nat (-5) ltac:(cbn; lia) eq_refl) as [H0 _]. apply H0. rewrite T by lia. cbn. lra.
  - destruct (H 1%nat 500 ltac:(cbn; lia) eq_refl) as [_ H0]. destruct (H0 500%nat ltac:(lia) ltac:(rewrite T by lia; lra) ltac:(intros _; rewrite T by lia; lra)) as [H1 _].
    assert (A : 500 = nth 500 ramp_times 0) by (rewrite T by lia; lra).
    destruct (H1 (or_introl A)) as [_ H2]. apply H2. intros [Q _]. lia.
  - destruct (H 2%nat 999 ltac:(cbn; lia) eq_refl) as [_ H0]. destruct (H0 999%nat ltac:(lia) ltac:(rewrite T by lia; lra) ltac:(intros _; rewrite T by lia; lra)) as [H1 _].
    assert (A : 999 = nth 999 ramp_times 0) by (rewrite T by lia; lra).
    destruct (H1 (or_introl A)) as [H2 _]. destruct (H2 (ramp_complete 999 ltac:(lia))) as [m [Hm Em]]. rewrite Em. apply (ramp_max 999 m ltac:(lia) Hm).
  - destruct (H 3%nat (INR 999 + 1 / 2) ltac:(cbn; lia) eq_refl) as [_ H0]. destruct (H0 999%nat ltac:(lia) ltac:(rewrite T by lia; lra) ltac:(intros _; rewrite T by lia; lra)) as [_ H1].
    destruct (H1 ltac:(rewrite T by lia; lra) ltac:(lia)) as [H2 _]. destruct (H2 (ramp_complete 999 ltac:(lia)) (ramp_complete 1000 ltac:(lia))) as [m [m' [Hm [Hm' Em]]]]. rewrite Em.
    rewrite (ramp_max 999 m ltac:(lia) Hm), (ramp_max 1000 m' ltac:(lia) Hm'). unfold on_line. rewrite !T by lia. cbn [nth]. rewrite I999, I1000. field.
  - destruct (H 4%nat (INR 1000 + 7) ltac:(cbn; lia) eq_refl) as [_ H0]. destruct (H0 1000%nat ltac:(lia) ltac:(rewrite T by lia; lra) ltac:(intros Q; lia)) as [H1 _].
    destruct (H1 (or_intror eq_refl)) as [H2 _]. destruct (H2 (ramp_complete 1000 ltac:(lia))) as [m [Hm Em]]. rewrite Em. apply (ramp_max 1000 m ltac:(lia) Hm).
Qed.

(** C90: but where fewer than 1000 samples precede, what is compared may be below the motion at that very time. *)
Theorem C90_covers_always_refuted : exists tsec mt mv r v, length mv = length mt /\ ordered mt /\ mru_interp tsec mt mv = Ok r /\
  nth 0 tsec 0 = nth 0 mt 0 /\ nth 0 mv None = Some v /\ nth 0 r 0 < v.
Proof.
  assert (O1 : ordered [0]) by (intros a b H; cbn in H; replace a with 0%nat by lia; replace b with 0%nat by lia; lra).
  destruct (C90_envelope [0] [0] [Some 1]) as [r [E [_ H]]]; [reflexivity|discriminate|exact O1|].
  exists [0], [0], [Some 1], r, 1. split; [reflexivity|]. split; [exact O1|]. split; [exact E|]. split; [reflexivity|]. split; [reflexivity|].
  destruct (H 0%nat 0 ltac:(cbn; lia) eq_refl) as [_ H0]. destruct (H0 0%nat ltac:(cbn; lia) ltac:(cbn; lra) ltac:(cbn; lia)) as [H1 _]. destruct (H1 (or_introl eq_refl)) as [_ H2].
  rewrite H2; [lra|]. intros [Q _]. lia.
Qed.
Print Assumptions C90_covers_always_refuted.

(** C90: motion without samples, or with times that do not belong to its samples, is refused. *)
Theorem C90_failures : forall tsec mt mv, mt = [] \/ length mv <> length mt -> mru_interp tsec mt mv = Raise ValueError.
Proof.
  intros tsec mt mv [->|H]; [reflexivity|]. unfold mru_interp. rewrite rolling_length. destruct (length mt =? 0)%nat; [reflexivity|].
  destruct (Nat.eqb_spec (length mv) (length mt)); [contradiction|reflexivity].
Qed.
Print Assumptions C90_failures.

(** ** C91 *)
(** C91: the plotted values are the magnitude-squared coherence of the segments' Fourier coefficients. *)
Theorem C91_coherence : forall x y n, length x = n -> length y = n -> (2 <= n)%nat ->
  exists N s K freq coh, segmentation n N s K /\ (0 < K)%nat /\ coherence x y = (freq, coh) /\
  length freq = S (Nat.div N 2) /\ length coh = S (Nat.div N 2) /\
  forall f, (f <= Nat.div N 2)%nat ->
  nth f freq 0 = INR f / INR N /\
  (power N s K x f = 0 \/ power N s K y f = 0 -> nth f coh None = None) /\
  (power N s K x f <> 0 -> power N s K y f <> 0 -> nth f coh None = Some (msc N s K x y f)).
Proof.
  intros x y n Lx Ly Hn. destruct (csd_spec n Hn) as [c [Pc H]].
  exists (nperseg n), (nperseg n - noverlap n)%nat, (nsegments n). eexists. eexists.
  split; [split; [reflexivity|split; [reflexivity|intros k; apply nsegments_spec; lia]]|]. split; [apply nsegments_pos; lia|].
  split; [unfold coherence; destruct x as [|a x]; [cbn in Lx; lia|]; rewrite Lx; reflexivity|].
  destruct (H x y Lx Ly) as [L1 E1]. destruct (H x x Lx Lx) as [L2 E2]. destruct (H y y Ly Ly) as [L3 E3].
  split; [rewrite map_length, seq_length; reflexivity|]. split; [rewrite map_length, seq_length; exact L1|].
  intros f Hf. split; [rewrite nth_map_seq by lia; reflexivity|].
  rewrite nth_map_seq by (rewrite L1; lia). cbv zeta. rewrite (nth_map _ _ fst (csd x x) f 0 C0) by (unfold Cx in *; rewrite L2; lia). rewrite (nth_map _ _ fst (csd y y) f 0 C0) by (unfold Cx in *; rewrite L3; lia).
  rewrite E1, E2, E3 by exact Hf. cbn [fst snd]. set (N := nperseg n). set (s := (N - noverlap n)%nat). set (K := nsegments n).
  assert (PW : forall z, cospec N s K z z f = power N s K z f) by (intros z; unfold cospec, power; apply Rsum_ext; intros k _; ring).
  rewrite !PW. specialize (Pc f). split.
  - intros [Z|Z]; rewrite Z, Rmult_0_r; destruct (Req_EM_T 0 0) as [_|Q]; try lra; try reflexivity. destruct (Req_EM_T _ 0); reflexivity.
  - intros Z1 Z2. assert (Q1 : c f * power N s K x f <> 0) by (apply Rmult_integral_contrapositive_currified; lra). assert (Q2 : c f * power N s K y f <> 0) by (apply Rmult_integral_contrapositive_currified; lra).
    destruct (Req_EM_T (c f * power N s K x f) 0); [contradiction|]. destruct (Req_EM_T (c f * power N s K y f) 0); [contradiction|]. f_equal. rewrite pow2_sqrt by (apply Rplus_le_le_0_compat; apply pow2_ge_0).
    unfold msc. field. repeat split; try assumption; lra.
Qed.
Print Assumptions C91_coherence.

Lemma power_nonneg N s K x f : 0 <= power N s K x f.
Proof. apply Rsum_nonneg. intros k _. apply Rplus_le_le_0_compat; apply pow2_ge_0. Qed.
Lemma coherence_short x y : (length x <= 1)%nat -> length y = length x -> forall f, nth f (snd (coherence x y)) None = None.
Proof.
  intros H L f. destruct x as [|a [|b x]]; [destruct f; reflexivity| |cbn in H; lia]. destruct y as [|c [|d y]]; try discriminate. clear.
  assert (S1 : forall v, segment_fft [v] 0 = [C0]).
  { intros v. unfold segment_fft. cbn [length]. change (nperseg 1) with 1%nat. change (noverlap 1) with 0%nat. change (slice [v] (0 * (1 - 0)) (0 * (1 - 0) + 1)) with [v].
    unfold np_mean. change (pysum [v]) with (0 + v). cbn [length map]. change (hann 1) with [1]. cbn [map2 map]. change (Nat.div 1 2) with 0%nat. unfold fft. cbn [length map seq firstn]. f_equal.
    unfold csum. cbn [map]. unfold cmul, cre, cis, C0. cbn [fst snd nth INR]. unfold pysum. cbn [fold_left]. f_equal; field. }
  assert (C1 : forall v w, csd [v] [w] = [C0]).
  { intros v w. unfold csd. cbn [length]. change (nperseg 1) with 1%nat. change (nsegments 1) with 1%nat. change (S (Nat.div 1 2)) with 1%nat. cbn [seq map]. rewrite !S1. cbn [nth]. f_equal.
    unfold csum, cscal, cmul, cconj, C0, pysum. cbn [map fst snd fold_left]. f_equal; ring. }
  unfold coherence. rewrite !C1. cbn [snd map length seq nth fst C0]. destruct (Req_EM_T 0 0) as [_|Q]; [|lra]. destruct f as [|[|f]]; reflexivity.
Qed.

(** a value of the result, with the segments' coefficients it comes from *)
Lemma coherence_value x y f v : length y = length x -> nth f (snd (coherence x y)) None = Some v ->
  exists N s K, segmentation (length x) N s K /\ (f <= Nat.div N 2)%nat /\ power N s K x f <> 0 /\ power N s K y f <> 0 /\ v = msc N s K x y f.
Proof.
  intros L E. destruct (le_lt_dec (length x) 1) as [S1|S1]; [rewrite coherence_short in E by assumption; discriminate|].
  destruct (C91_coherence x y (length x) eq_refl L S1) as [N [s [K [freq [coh [SG [_ [EC [_ [L2 H]]]]]]]]]]. rewrite EC in E. cbn [snd] in E.
  assert (Hf : (f <= Nat.div N 2)%nat). { destruct (le_lt_dec (S (Nat.div N 2)) f) as [Q|Q]; [rewrite nth_overflow in E by lia; discriminate|lia]. }
  destruct (H f Hf) as [_ [H1 H2]]. exists N, s, K. split; [exact SG|]. split; [exact Hf|].
  destruct (Req_dec (power N s K x f) 0) as [Z|Z]; [rewrite H1 in E by (left; exact Z); discriminate|]. destruct (Req_dec (power N s K y f) 0) as [Z'|Z']; [rewrite H1 in E by (right; exact Z'); discriminate|].
  split; [exact Z|]. split; [exact Z'|]. rewrite H2 in E by assumption. congruence.
Qed.
Lemma msc_gap N s K x y f : power N s K x f <> 0 -> power N s K y f <> 0 ->
  let u := cospec N s K x y f / power N s K x f in let v := quadspec N s K x y f / power N s K x f in
  msc N s K x y f = 1 - Rsum K (fun k => (four_re N s y f k - (u * four_re N s x f k - v * four_im N s x f k)) ^ 2 + (four_im N s y f k - (u * four_im N s x f k + v * four_re N s x f k)) ^ 2) / power N s K y f.
Proof.
  intros Hx Hy u v. pose proof (cauchy_schwarz K (four_re N s x f) (four_im N s x f) (four_re N s y f) (four_im N s y f) Hx) as CS. cbv zeta in CS.
  fold (power N s K x f) in CS. fold (power N s K y f) in CS. fold (cospec N s K x y f) in CS. fold (quadspec N s K x y f) in CS. fold u v in CS. unfold msc. rewrite CS. field. split; assumption.
Qed.

(** C91: coherence lies between 0 and 1. *)
Theorem C91_range : forall x y f v, length y = length x -> nth f (snd (coherence x y)) None = Some v -> 0 <= v <= 1.
Proof.
  intros x y f v L E. destruct (coherence_value x y f v L E) as [N [s [K [_ [_ [Hx [Hy ->]]]]]]].
  pose proof (power_nonneg N s K x f). pose proof (power_nonneg N s K y f). split.
  - unfold msc. apply Rmult_le_pos; [apply Rplus_le_le_0_compat; apply pow2_ge_0|]. apply Rlt_le, Rinv_0_lt_compat. apply Rmult_lt_0_compat; lra.
  - rewrite msc_gap by assumption. cbv zeta. match goal with |- 1 - ?S / ?P <= 1 => assert (A : 0 <= S / P) end; [|lra].
    apply Rmult_le_pos; [apply Rsum_nonneg; intros k _; apply Rplus_le_le_0_compat; apply pow2_ge_0|apply Rlt_le, Rinv_0_lt_compat; lra].
Qed.
Print Assumptions C91_range.

(** C91: coherence is 1 exactly where one complex factor takes the coefficients of the one series to those of the other, in
    every segment. *)
Theorem C91_full : forall x y f v, length y = length x -> nth f (snd (coherence x y)) None = Some v ->
  exists N s K, segmentation (length x) N s K /\
  (v = 1 <-> exists p q, forall k, (k < K)%nat -> four_re N s y f k = p * four_re N s x f k - q * four_im N s x f k /\
                                              four_im N s y f k = p * four_im N s x f k + q * four_re N s x f k).
Proof.
  intros x y f v L E. destruct (coherence_value x y f v L E) as [N [s [K [SG [_ [Hx [Hy ->]]]]]]]. exists N, s, K. split; [exact SG|]. split.
  - rewrite msc_gap by assumption. cbv zeta. intros H. match type of H with 1 - ?S / ?P = 1 => assert (Z : S = 0) end.
    { apply Rmult_eq_reg_r with (/ power N s K y f); [|apply Rinv_neq_0_compat; exact Hy]. unfold Rdiv in H. lra. }
    exists (cospec N s K x y f / power N s K x f), (quadspec N s K x y f / power N s K x f). intros k Hk.
    pose proof (Rsum_nonneg_zero _ _ (fun i _ => Rplus_le_le_0_compat _ _ (pow2_ge_0 _) (pow2_ge_0 _)) Z k Hk) as A. cbv beta in A. apply sq_zero in A. lra.
  - intros [p [q H]].
    assert (PY : power N s K y f = (p ^ 2 + q ^ 2) * power N s K x f). { unfold power. rewrite <- Rsum_scal. apply Rsum_ext. intros k Hk. destruct (H k Hk) as [-> ->]. ring. }
    assert (CX : cospec N s K x y f = p * power N s K x f). { unfold cospec, power. rewrite <- Rsum_scal. apply Rsum_ext. intros k Hk. destruct (H k Hk) as [-> ->]. ring. }
    assert (QX : quadspec N s K x y f = q * power N s K x f). { unfold quadspec, power. rewrite <- Rsum_scal. apply Rsum_ext. intros k Hk. destruct (H k Hk) as [-> ->]. ring. }
    unfold msc. rewrite CX, QX, PY. rewrite PY in Hy. assert (p ^ 2 + q ^ 2 <> 0) by (intros Z; rewrite Z, Rmult_0_l in Hy; apply Hy; reflexivity). field. split; assumption.
Qed.
Print Assumptions C91_full.

(** C91: series of fewer than 384 samples are one segment, and have coherence 1 wherever it is defined, whatever they are. *)
Theorem C91_one_segment : forall x y f v, length y = length x -> (length x < 384)%nat -> nth f (snd (coherence x y)) None = Some v -> v = 1.
Proof.
  intros x y f v L H E. destruct (coherence_value x y f v L E) as [N [s [K [[EN [Es SG]] [_ [Hx [Hy ->]]]]]]].
  assert (K1 : K = 1%nat).
  { destruct K as [|[|K]]; [|reflexivity|]; exfalso.
    - apply Hx. reflexivity.
    - pose proof (proj1 (SG 1%nat) ltac:(lia)) as Q. pose proof (Nat.div_mod N 2 ltac:(lia)) as D. pose proof (Nat.mod_upper_bound N 2 ltac:(lia)). destruct (le_lt_dec 256 (length x)) as [G|G].
      + assert (N = 256%nat) by lia. subst N. rewrite H1 in Es. cbn in Es. lia.
      + assert (N = length x) by lia. destruct (Nat.eq_dec (length x) 0) as [Z|Z]; [|lia]. rewrite Z in *. subst N. apply Hx. unfold power, four_re, four_im. rewrite H1. apply Rsum_eq0. intros k _. cbn [Rsum]. ring. }
  subst K. unfold msc, cospec, quadspec, power in *. cbn [Rsum] in *. rewrite !Rplus_0_l in *. field. split; assumption.
Qed.
Print Assumptions C91_one_segment.

Lemma segmentation_unique n N s K N' s' K' : segmentation n N s K -> segmentation n N' s' K' -> N = N' /\ s = s' /\ K = K'.
Proof.
  intros [-> [-> A]] [-> [-> B]]. split; [reflexivity|]. split; [reflexivity|].
  destruct (Nat.lt_trichotomy K K') as [Q|[Q|Q]]; [|exact Q|]; exfalso; [assert (C := proj1 (B K) Q); apply A in C|assert (C := proj1 (A K') Q); apply B in C]; lia.
Qed.
Lemma coherence_same x y x' y' : length y = length x -> length x' = length x -> length y' = length x -> (2 <= length x)%nat ->
  (forall N s K f, segmentation (length x) N s K -> (power N s K x f = 0 \/ power N s K y f = 0 <-> power N s K x' f = 0 \/ power N s K y' f = 0) /\
     (power N s K x f <> 0 -> power N s K y f <> 0 -> msc N s K x y f = msc N s K x' y' f)) ->
  coherence x y = coherence x' y'.
Proof.
  intros L1 L2 L3 Hn H. destruct (C91_coherence x y (length x) eq_refl L1 Hn) as [N [s [K [fr [co [SG [_ [E [A1 [A2 A3]]]]]]]]]].
  destruct (C91_coherence x' y' (length x) L2 L3 Hn) as [N' [s' [K' [fr' [co' [SG' [_ [E' [B1 [B2 B3]]]]]]]]]].
  destruct (segmentation_unique _ _ _ _ _ _ _ SG SG') as [-> [-> ->]]. rewrite E, E'. f_equal.
  - apply (list_eq_nth R) with (d := 0); [congruence|]. intros f Hf. rewrite (proj1 (A3 f ltac:(lia))), (proj1 (B3 f ltac:(lia))). reflexivity.
  - apply (list_eq_nth (option R)) with (d := None); [congruence|]. intros f Hf. destruct (A3 f ltac:(lia)) as [_ [U V]]. destruct (B3 f ltac:(lia)) as [_ [U' V']]. destruct (H N' s' K' f SG) as [Z M].
    destruct (Req_dec (power N' s' K' x f) 0) as [Q|Q]; [rewrite U, U'; [reflexivity|apply Z; left; exact Q|left; exact Q]|].
    destruct (Req_dec (power N' s' K' y f) 0) as [Q'|Q']; [rewrite U, U'; [reflexivity|apply Z; right; exact Q'|right; exact Q']|].
    rewrite V by assumption. rewrite V' by (intros Q2; tauto). rewrite M by assumption. reflexivity.
Qed.
Lemma four_affine n N s K a b x f k : segmentation n N s K -> length x = n -> (0 < n)%nat -> (k < K)%nat ->
  four_re N s (map (fun v => a * v + b) x) f k = a * four_re N s x f k /\ four_im N s (map (fun v => a * v + b) x) f k = a * four_im N s x f k.
Proof.
  intros [EN [_ SG]] L Hn Hk. apply SG in Hk. assert (PN : 0 < INR N) by (apply lt_0_INR; lia).
  assert (G : forall j, (j < N)%nat -> nth (k * s + j) (map (fun v => a * v + b) x) 0 = a * nth (k * s + j) x 0 + b) by (intros j Hj; rewrite (nth_map _ _ _ x _ 0 0) by lia; reflexivity).
  assert (M : seg_mean (map (fun v => a * v + b) x) N (k * s) = a * seg_mean x N (k * s) + b).
  { unfold seg_mean. rewrite (Rsum_ext N _ (fun j => a * nth (k * s + j) x 0 + b)) by exact G. rewrite Rsum_plus, Rsum_scal, Rsum_const. field. lra. }
  unfold four_re, four_im. rewrite M. split.
  - rewrite <- Rsum_scal. apply Rsum_ext. intros j Hj. rewrite G by exact Hj. ring.
  - rewrite <- Ropp_mult_distr_r. f_equal. rewrite <- Rsum_scal. apply Rsum_ext. intros j Hj. rewrite G by exact Hj. ring.
Qed.
Lemma spectra_affine n N s K a b c d x y f : segmentation n N s K -> length x = n -> length y = n -> (0 < n)%nat ->
  let x' := map (fun v => a * v + b) x in let y' := map (fun v => c * v + d) y in
  power N s K x' f = a ^ 2 * power N s K x f /\ power N s K y' f = c ^ 2 * power N s K y f /\
  cospec N s K x' y' f = a * c * cospec N s K x y f /\ quadspec N s K x' y' f = a * c * quadspec N s K x y f.
Proof.
  intros SG Lx Ly Hn x' y'. unfold power, cospec, quadspec. rewrite <- !Rsum_scal.
  repeat split; apply Rsum_ext; intros k Hk; destruct (four_affine n N s K a b x f k SG Lx Hn Hk) as [X1 X2]; destruct (four_affine n N s K c d y f k SG Ly Hn Hk) as [Y1 Y2]; fold x' in X1, X2; fold y' in Y1, Y2; rewrite ?X1, ?X2, ?Y1, ?Y2; ring.
Qed.

(** C91: units and offsets of the two series do not matter. *)
Theorem C91_units : forall x y a b c d, length y = length x -> a <> 0 -> c <> 0 -> (2 <= length x)%nat ->
  coherence (map (fun v => a * v + b) x) (map (fun v => c * v + d) y) = coherence x y.
Proof.
  intros x y a b c d L Ha Hc Hn. symmetry. apply coherence_same; rewrite ?map_length; try assumption; [reflexivity|]. intros N s K f SG.
  destruct (spectra_affine _ N s K a b c d x y f SG eq_refl L ltac:(lia)) as [P1 [P2 [C1 Q1]]]. pose proof (pow_nonzero a 2 Ha) as A2. pose proof (pow_nonzero c 2 Hc) as C2. split.
  - rewrite P1, P2. split.
    + intros [Z|Z]; rewrite Z; [left|right]; ring.
    + intros [Z|Z]; [left|right]; (apply Rmult_integral in Z; destruct Z as [Z|Z]; [contradiction|exact Z]).
  - intros Hx Hy. unfold msc. rewrite P1, P2, C1, Q1. field. repeat split; assumption.
Qed.
Print Assumptions C91_units.

(** C91: coherence does not depend on the order of the two series. *)
Theorem C91_symmetric : forall x y, length y = length x -> (2 <= length x)%nat -> coherence x y = coherence y x.
Proof.
  intros x y L Hn. apply coherence_same; try assumption; [reflexivity|]. intros N s K f _. split; [tauto|]. intros Hx Hy. unfold msc.
  replace (cospec N s K y x f) with (cospec N s K x y f) by (unfold cospec; apply Rsum_ext; intros; ring).
  replace (quadspec N s K y x f) with (- quadspec N s K x y f). { field. split; assumption. }
  unfold quadspec. replace (- Rsum K (fun k => four_re N s x f k * four_im N s y f k - four_im N s x f k * four_re N s y f k)) with (-1 * Rsum K (fun k => four_re N s x f k * four_im N s y f k - four_im N s x f k * four_re N s y f k)) by ring.
  rewrite <- Rsum_scal. apply Rsum_ext. intros; ring.
Qed.
Print Assumptions C91_symmetric.

(** C91: a monitor that is a linear function of the motion has coherence 1. *)
Theorem C91_linear : forall x a b f v, a <> 0 -> nth f (snd (coherence x (map (fun t => a * t + b) x))) None = Some v -> v = 1.
Proof.
  intros x a b f v Ha E. destruct (coherence_value x _ f v ltac:(apply map_length) E) as [N [s [K [SG [_ [Hx [Hy Ev]]]]]]].
  destruct (C91_full x _ f v ltac:(apply map_length) E) as [N' [s' [K' [SG' H]]]]. destruct (segmentation_unique _ _ _ _ _ _ _ SG SG') as [<- [<- <-]].
  apply H. exists a, 0. intros k Hk. destruct (le_lt_dec (length x) 0) as [Z|Z].
  - exfalso. destruct x; [destruct f; discriminate|cbn in Z; lia].
  - destruct (four_affine _ N s K a b x f k SG eq_refl Z Hk) as [-> ->]. split; ring.
Qed.
Print Assumptions C91_linear.

Lemma four_constant N s x f k : (0 < N)%nat -> (forall j, (j < N)%nat -> nth (k * s + j) x 0 = nth (k * s) x 0) -> four_re N s x f k = 0 /\ four_im N s x f k = 0.
Proof.
  intros HN H. assert (M : seg_mean x N (k * s) = nth (k * s) x 0). { unfold seg_mean. rewrite (Rsum_ext N _ (fun _ => nth (k * s) x 0)) by exact H. rewrite Rsum_const. field. apply not_0_INR. lia. }
  unfold four_re, four_im. rewrite M. split; [|apply Ropp_eq_0_compat]; apply Rsum_eq0; intros j Hj; rewrite H by exact Hj; ring.
Qed.
(** C91: where in every segment one of the two is at rest, coherence is 0. *)
Theorem C91_unrelated : forall x y f v, length y = length x -> nth f (snd (coherence x y)) None = Some v ->
  (forall N s K k, segmentation (length x) N s K -> (k < K)%nat ->
     (forall j, (j < N)%nat -> nth (k * s + j) x 0 = nth (k * s) x 0) \/ (forall j, (j < N)%nat -> nth (k * s + j) y 0 = nth (k * s) y 0)) ->
  v = 0.
Proof.
  intros x y f v L E H. destruct (coherence_value x y f v L E) as [N [s [K [SG [_ [Hx [Hy ->]]]]]]].
  assert (HN : (0 < N)%nat). { destruct x; [destruct f; discriminate|]. destruct SG as [-> _]. cbn [length]. lia. }
  assert (Z : forall k, (k < K)%nat -> (four_re N s x f k = 0 /\ four_im N s x f k = 0) \/ (four_re N s y f k = 0 /\ four_im N s y f k = 0)).
  { intros k Hk. destruct (H N s K k SG Hk) as [Q|Q]; [left|right]; apply four_constant; assumption. }
  unfold msc. replace (cospec N s K x y f) with 0. { replace (quadspec N s K x y f) with 0; [field; split; assumption|]. symmetry. apply Rsum_eq0. intros k Hk. destruct (Z k Hk) as [[-> ->]|[-> ->]]; ring. }
  symmetry. apply Rsum_eq0. intros k Hk. destruct (Z k Hk) as [[-> ->]|[-> ->]]; ring.
Qed.
Print Assumptions C91_unrelated.

(** C91: a constant series has no coherence with anything. *)
Theorem C91_constant : forall c y f, nth f (snd (coherence (repeat c (length y)) y)) None = None.
Proof.
  intros c y f. destruct (nth f (snd (coherence (repeat c (length y)) y)) None) as [v|] eqn:E; [exfalso|reflexivity].
  destruct (coherence_value (repeat c (length y)) y f v (eq_sym (repeat_length c (length y))) E) as [N [s [K [[EN [_ SG]] [_ [Hx _]]]]]]. rewrite repeat_length in *. apply Hx.
  apply Rsum_eq0. intros k Hk. apply SG in Hk.
  assert (HN : (0 < N)%nat) by (destruct y; [destruct f; discriminate|cbn [length] in EN; lia]).
  assert (G : forall i, (i < length y)%nat -> nth i (repeat c (length y)) 0 = c) by (intros i Hi; apply nth_repeat_lt; exact Hi).
  destruct (four_constant N s (repeat c (length y)) f k HN) as [-> ->]; [|ring]. intros j Hj. rewrite !G by lia. reflexivity.
Qed.
Print Assumptions C91_constant.

(** Two recordings of 384 samples: a single pulse, and that pulse followed by an equal one in the other segment. *)
Definition pulse : list R := map (fun i => if (i =? 64)%nat then 1 else 0) (seq 0 384).
Definition pulses : list R := map (fun i => if (i =? 64)%nat || (i =? 320)%nat then 1 else 0) (seq 0 384).
Lemma hann_bin2 : Rsum 256 (fun j => taper 256 j * cos (2 * PI * INR 2 * INR j / INR 256)) = 0 /\ Rsum 256 (fun j => taper 256 j * sin (2 * PI * INR 2 * INR j / INR 256)) = 0.
Proof.
  assert (C : forall m, (0 < m < 256)%nat -> Rsum 256 (fun j => cos (2 * PI * INR m * INR j / INR 256)) = 0).
  { intros m Hm. rewrite <- (cos_sum_zero 256 m 0 Hm). apply Rsum_ext. intros j _. rewrite Rplus_0_l. reflexivity. }
  assert (D : forall m, (0 < m < 256)%nat -> Rsum 256 (fun j => sin (2 * PI * INR m * INR j / INR 256)) = 0).
  { intros m Hm. rewrite <- (sin_sum_zero 256 m 0 Hm). apply Rsum_ext. intros j _. rewrite Rplus_0_l. reflexivity. }
  assert (A : forall j, 2 * PI * INR 3 * INR j / INR 256 = 2 * PI * INR 2 * INR j / INR 256 + 2 * PI * INR j / INR 256) by (intros j; cbn [INR]; unfold Rdiv; ring).
  assert (B : forall j, 2 * PI * INR 1 * INR j / INR 256 = 2 * PI * INR 2 * INR j / INR 256 - 2 * PI * INR j / INR 256) by (intros j; cbn [INR]; unfold Rdiv; ring).
  split.
  - rewrite (Rsum_ext 256 _ (fun j => / 2 * cos (2 * PI * INR 2 * INR j / INR 256) - / 4 * (cos (2 * PI * INR 3 * INR j / INR 256) + cos (2 * PI * INR 1 * INR j / INR 256)))).
    + rewrite Rsum_minus, !Rsum_scal, Rsum_plus, !C by lia. ring.
    + intros j _. unfold taper. rewrite A, B, cos_plus, cos_minus. field.
  - rewrite (Rsum_ext 256 _ (fun j => / 2 * sin (2 * PI * INR 2 * INR j / INR 256) - / 4 * (sin (2 * PI * INR 3 * INR j / INR 256) + sin (2 * PI * INR 1 * INR j / INR 256)))).
    + rewrite Rsum_minus, !Rsum_scal, Rsum_plus, !D by lia. ring.
    + intros j _. unfold taper. rewrite A, B, sin_plus, sin_minus. field.
Qed.
Lemma four_pulse x k p : (p < 256)%nat -> (forall j, (j < 256)%nat -> nth (k * 128 + j) x 0 = if (j =? p)%nat then 1 else 0) ->
  four_re 256 128 x 2 k = taper 256 p * cos (2 * PI * INR 2 * INR p / INR 256) /\ four_im 256 128 x 2 k = - (taper 256 p * sin (2 * PI * INR 2 * INR p / INR 256)).
Proof.
  intros Hp H. destruct hann_bin2 as [HC HS]. unfold four_re, four_im. set (m := seg_mean x 256 (k * 128)). split; [|f_equal].
  - rewrite (Rsum_ext 256 _ (fun j => (if (j =? p)%nat then taper 256 j * cos (2 * PI * INR 2 * INR j / INR 256) else 0) - m * (taper 256 j * cos (2 * PI * INR 2 * INR j / INR 256)))) by (intros j Hj; rewrite H by exact Hj; destruct (j =? p)%nat; ring).
    rewrite Rsum_minus, Rsum_scal, HC. rewrite (Rsum_single 256 p); [rewrite Nat.eqb_refl; ring|exact Hp|]. intros j _ Hn. destruct (Nat.eqb_spec j p); [contradiction|reflexivity].
  - rewrite (Rsum_ext 256 _ (fun j => (if (j =? p)%nat then taper 256 j * sin (2 * PI * INR 2 * INR j / INR 256) else 0) - m * (taper 256 j * sin (2 * PI * INR 2 * INR j / INR 256)))) by (intros j Hj; rewrite H by exact Hj; destruct (j =? p)%nat; ring).
    rewrite Rsum_minus, Rsum_scal, HS. rewrite (Rsum_single 256 p); [rewrite Nat.eqb_refl; ring|exact Hp|]. intros j _ Hn. destruct (Nat.eqb_spec j p); [contradiction|reflexivity].
Qed.
Example C91_coherence_case : nth 2 (snd (coherence pulse pulses)) None = Some (1 / 2).
Proof.
  assert (L1 : length pulse = 384%nat) by (unfold pulse; rewrite map_length, seq_length; reflexivity). assert (L2 : length pulses = 384%nat) by (unfold pulses; rewrite map_length, seq_length; reflexivity).
  assert (I64 : INR 64 = 64) by (rewrite INR_IZR_INZ; reflexivity). assert (I192 : INR 192 = 192) by (rewrite INR_IZR_INZ; reflexivity). assert (I256 : INR 256 = 256) by (rewrite INR_IZR_INZ; reflexivity).
  assert (T1 : taper 256 64 = 1 / 2) by (unfold taper; rewrite I64, I256; replace (2 * PI * 64 / 256) with (PI / 2) by field; rewrite cos_PI2; field).
  assert (T2 : taper 256 192 = 1 / 2) by (unfold taper; rewrite I192, I256; replace (2 * PI * 192 / 256) with (3 * (PI / 2)) by field; rewrite cos_3PI2; field).
  assert (A1 : 2 * PI * INR 2 * INR 64 / INR 256 = PI) by (rewrite I64, I256; cbn [INR]; field). assert (A2 : 2 * PI * INR 2 * INR 192 / INR 256 = PI + 2 * PI) by (rewrite I192, I256; cbn [INR]; field).
  destruct (C91_coherence pulse pulses 384 L1 L2 ltac:(lia)) as [N [s [K [fr [co [[EN [Es SG]] [_ [E [_ [_ H]]]]]]]]]]. rewrite E. cbn [snd].
  assert (N = 256%nat) by (rewrite EN; reflexivity). clear EN. subst N. assert (s = 128%nat) by (rewrite Es; reflexivity). clear Es. subst s.
  assert (EK : K = 2%nat). { assert (~ (2 < K)%nat) by (rewrite SG; lia). assert (1 < K)%nat by (apply SG; lia). lia. } subst K.
  assert (X0 : four_re 256 128 pulse 2 0 = - (1 / 2) /\ four_im 256 128 pulse 2 0 = 0).
  { destruct (four_pulse pulse 0 64 ltac:(lia)) as [-> ->]; [intros j Hj; unfold pulse; rewrite nth_map_seq by lia; reflexivity|]. rewrite T1, A1, cos_PI, sin_PI. split; field. }
  assert (Y0 : four_re 256 128 pulses 2 0 = - (1 / 2) /\ four_im 256 128 pulses 2 0 = 0).
  { destruct (four_pulse pulses 0 64 ltac:(lia)) as [-> ->]; [intros j Hj; unfold pulses; rewrite nth_map_seq by lia; destruct (Nat.eqb_spec (0 * 128 + j) 64), (Nat.eqb_spec (0 * 128 + j) 320), (Nat.eqb_spec j 64); try lia; reflexivity|]. rewrite T1, A1, cos_PI, sin_PI. split; field. }
  assert (Y1 : four_re 256 128 pulses 2 1 = - (1 / 2) /\ four_im 256 128 pulses 2 1 = 0).
  { destruct (four_pulse pulses 1 192 ltac:(lia)) as [-> ->]; [intros j Hj; unfold pulses; rewrite nth_map_seq by lia; destruct (Nat.eqb_spec (1 * 128 + j) 64), (Nat.eqb_spec (1 * 128 + j) 320), (Nat.eqb_spec j 192); try lia; reflexivity|].
    rewrite T2, A2. rewrite <- (Rmult_1_r (2 * PI)). replace (PI + 2 * PI * 1) with (PI + 2 * INR 1 * PI) by (cbn [INR]; ring). rewrite cos_period, sin_period, cos_PI, sin_PI. split; field. }
  assert (X1 : four_re 256 128 pulse 2 1 = 0 /\ four_im 256 128 pulse 2 1 = 0).
  { apply four_constant; [lia|]. intros j Hj. unfold pulse. rewrite !nth_map_seq by lia. destruct (Nat.eqb_spec (1 * 128 + j) 64), (Nat.eqb_spec (1 * 128) 64); try lia; reflexivity. }
  destruct X0 as [X0 X0']. destruct X1 as [X1 X1']. destruct Y0 as [Y0 Y0']. destruct Y1 as [Y1 Y1'].
  assert (P1 : power 256 128 2 pulse 2 = 1 / 4) by (unfold power; cbn [Rsum]; rewrite X0, X0', X1, X1'; field). assert (P2 : power 256 128 2 pulses 2 = 1 / 2) by (unfold power; cbn [Rsum]; rewrite Y0, Y0', Y1, Y1'; field).
  assert (H2 : (2 <= 256 / 2)%nat) by (change (256 / 2)%nat with 128%nat; lia).
  destruct (H 2%nat H2) as [_ [_ H3]]. rewrite H3 by lra. f_equal. unfold msc. rewrite P1, P2.
  unfold cospec, quadspec. cbn [Rsum]. rewrite X0, X0', X1, X1', Y0, Y0', Y1, Y1'. field.
Qed.
Example C91_one_segment_case : nth 0 (snd (coherence [0; 1] [5; 2])) None = Some 1.
Proof.
  destruct (C91_coherence [0; 1] [5; 2] 2 eq_refl eq_refl ltac:(lia)) as [N [s [K [fr [co [SG [_ [E [_ [_ H]]]]]]]]]].
  pose proof SG as [EN [Es SK]]. assert (EK : K = 1%nat). { cbn in EN. subst N. cbn in Es. subst s. assert (~ (1 < K)%nat) by (rewrite SK; lia). assert (0 < K)%nat by (apply SK; lia). lia. }
  cbn in EN. subst N. cbn in Es. subst s K. destruct (H 0%nat ltac:(lia)) as [_ [_ H3]]. rewrite E. cbn [snd].
  assert (T0 : taper 2 0 = 0) by (unfold taper; replace (2 * PI * INR 0 / INR 2) with 0 by (cbn [INR]; field); rewrite cos_0; field).
  assert (T1 : taper 2 1 = 1) by (unfold taper; replace (2 * PI * INR 1 / INR 2) with PI by (cbn [INR]; field); rewrite cos_PI; field).
  assert (Z : forall a b, power 2 1 1 [a; b] 0 = ((b - a) / 2) ^ 2).
  { intros a b. unfold power, four_re, four_im, seg_mean. cbn [Rsum Nat.mul Nat.add nth]. rewrite T0, T1. replace (2 * PI * INR 0 * INR 0 / INR 2) with 0 by (cbn [INR]; field). replace (2 * PI * INR 0 * INR 1 / INR 2) with 0 by (cbn [INR]; field). rewrite cos_0, sin_0. cbn [INR]. field. }
  assert (N1 : nth 0 co None = Some (msc 2 1 1 [0; 1] [5; 2] 0)) by (apply H3; rewrite Z; lra).
  pose proof (C91_one_segment [0; 1] [5; 2] 0 (msc 2 1 1 [0; 1] [5; 2] 0) eq_refl ltac:(cbn; lia)) as Q. rewrite E in Q. cbn [snd] in Q. rewrite N1. f_equal. apply Q. exact N1.
Qed.

(** C91: the script as a whole. *)
Theorem C91_script : forall tsec monitor mt mv, length monitor = length tsec -> length mv = length mt -> mt <> [] ->
  exists m fr co, mru_interp tsec mt mv = Ok m /\ length m = length monitor /\ monitor_coherence tsec monitor mt mv = Ok (fr, co) /\
  coherence monitor m = (fr, co) /\ forall f v, nth f co None = Some v -> 0 <= v <= 1.
Proof.
  intros tsec monitor mt mv L1 L2 NE. assert (E : exists m, mru_interp tsec mt mv = Ok m /\ length m = length tsec).
  { unfold mru_interp. rewrite rolling_length, L2. destruct (Nat.eqb_spec (length mt) 0) as [Q|_]; [destruct mt; [congruence|discriminate]|]. rewrite Nat.eqb_refl. eexists. split; [reflexivity|apply map_length]. }
  destruct E as [m [E Lm]]. destruct (coherence monitor m) as [fr co] eqn:C. exists m, fr, co. split; [exact E|]. split; [congruence|].
  split; [unfold monitor_coherence; rewrite E; cbn [bind]; rewrite C; reflexivity|]. split; [exact C|]. intros f v H. apply (C91_range monitor m f v); [congruence|]. rewrite C. exact H.
Qed.
Print Assumptions C91_script.
