(** Lemmas on the segments of the interactive picker. *)
From Coq Require Import ZArith Ascii String Reals Lia Arith List.
From Verif Require Import M_Py L_Base M_Str L_Str M_Cursor S_Cursor L_Cursor M_Seg S_Seg.
Import ListNotations.
Local Notation len := List.length.

(** ** Numerals *)
Lemma digit_dec d : (d < 10)%nat -> digit_of d (dec_digit d).
Proof. intros H. do 10 (destruct d as [|d]; [reflexivity|]). lia. Qed.
Lemma digit_bound d c : digit_of d c -> (d < 10)%nat.
Proof. unfold digit_of. intros H. assert (K : nth_error (lit "0123456789") d <> None) by congruence. apply nth_error_Some in K. exact K. Qed.
Lemma digit_fun d c c' : digit_of d c -> digit_of d c' -> c = c'.
Proof. unfold digit_of. congruence. Qed.
Lemma digit_inj d d' c : digit_of d c -> digit_of d' c -> d = d'.
Proof.
  intros H H'. pose proof (digit_bound _ _ H) as B. pose proof (digit_bound _ _ H') as B'. unfold digit_of in *.
  do 10 (destruct d as [|d]; [do 10 (destruct d' as [|d']; [first [reflexivity | exfalso; cbn in H, H'; congruence]|]); lia|]). lia.
Qed.
Lemma decimal_nonempty n s : decimal n s -> s <> [].
Proof. destruct 1; [discriminate|]. destruct s; discriminate. Qed.
Lemma decimal_fun n s : decimal n s -> forall s', decimal n s' -> s = s'.
Proof.
  induction 1 as [d c H|n s d c Hn Hs IH H]; intros s' H'.
  - inversion H' as [d' c' K E1 E2|n' s0 d' c' Kn K0 K E1 E2]; subst.
    + f_equal. exact (digit_fun _ _ _ H K).
    + pose proof (digit_bound _ _ H). lia.
  - inversion H' as [d' c' K E1 E2|n' s0 d' c' Kn K0 K E1 E2]; subst.
    + pose proof (digit_bound _ _ K). lia.
    + pose proof (digit_bound _ _ K) as B. pose proof (digit_bound _ _ H) as B'. assert (n' = n /\ d' = d) as [-> ->] by lia.
      rewrite (IH _ K0). rewrite (digit_fun _ _ _ H K). reflexivity.
Qed.
Lemma decimal_inj n s : decimal n s -> forall n', decimal n' s -> n = n'.
Proof.
  induction 1 as [d c H|n s d c Hn Hs IH H]; intros n' H'.
  - inversion H' as [d' c' K E1 E2|n0 s0 d' c' Kn K0 K E1 E2]; subst.
    + exact (digit_inj _ _ _ H K).
    + destruct s0 as [|x s0]; [exfalso; exact (decimal_nonempty _ _ K0 eq_refl)|]. destruct s0; discriminate.
  - inversion H' as [d' c' K E1 E2|n0 s0 d' c' Kn K0 K E1 E2].
    + symmetry in E2. destruct s as [|x s]; [exfalso; exact (decimal_nonempty _ _ Hs eq_refl)|]. destruct s; discriminate.
    + apply app_inj_tail in E2. destruct E2 as [-> ->]. rewrite (IH _ K0), (digit_inj _ _ _ H K). reflexivity.
Qed.
Lemma dec_go_decimal fuel : forall n, (n < fuel)%nat -> decimal n (dec_go fuel n).
Proof.
  induction fuel as [|f IH]; intros n Hn; [lia|]. cbn [dec_go]. destruct (n <? 10)%nat eqn:E.
  - apply Nat.ltb_lt in E. constructor. apply digit_dec. exact E.
  - apply Nat.ltb_ge in E. pose proof (Nat.div_mod n 10 ltac:(lia)) as D. rewrite D at 1.
    assert (M : (n mod 10 < 10)%nat) by (apply Nat.mod_upper_bound; lia).
    assert (P : (0 < n / 10)%nat) by (apply Nat.div_str_pos; lia).
    assert (L : (n / 10 < n)%nat) by (apply Nat.div_lt; lia).
    constructor; [exact P|apply IH; lia|apply digit_dec; exact M].
Qed.
Lemma dec_decimal n : decimal n (dec n).
Proof. apply dec_go_decimal. lia. Qed.
Lemma decimal_digits n s : decimal n s -> Forall (fun c => c <> "_"%char /\ c <> "-"%char) s.
Proof.
  assert (D : forall d c, digit_of d c -> c <> "_"%char /\ c <> "-"%char).
  { intros d c H. unfold digit_of in H. apply nth_error_In in H. cbn in H. repeat (destruct H as [<-|H]; [split; discriminate|]). destruct H. }
  induction 1 as [d c H|n s d c Hn Hs IH H]; [constructor; [exact (D _ _ H)|constructor]|].
  apply Forall_app. split; [exact IH|]. constructor; [exact (D _ _ H)|constructor].
Qed.
Lemma stop_unique (x : ascii) s s' r r' : Forall (fun c => c <> x) s -> Forall (fun c => c <> x) s' -> s ++ x :: r = s' ++ x :: r' -> s = s' /\ r = r'.
Proof.
  revert s'. induction s as [|a s IH]; intros [|b s'] H H' E; cbn in E.
  - injection E as ->. split; reflexivity.
  - injection E as -> _. inversion H'; subst. congruence.
  - injection E as -> _. inversion H; subst. congruence.
  - injection E as -> E. inversion H; subst. inversion H'; subst. destruct (IH s' H3 H5 E) as [-> ->]. split; reflexivity.
Qed.

(** ** Names *)
Lemma segment_name_spec j s : segment_file j (fst s) (snd s) (segment_name j s).
Proof. exists (dec j), (dec (fst s)), (dec (snd s)). split; [apply dec_decimal|]. split; [apply dec_decimal|]. split; [apply dec_decimal|]. reflexivity. Qed.
Lemma segment_file_name j a b name : segment_file j a b name -> name = segment_name j (a, b).
Proof.
  intros (sj & sa & sb & Hj & Ha & Hb & ->). unfold segment_name. cbn [fst snd].
  rewrite (decimal_fun _ _ Hj _ (dec_decimal j)), (decimal_fun _ _ Ha _ (dec_decimal a)), (decimal_fun _ _ Hb _ (dec_decimal b)). reflexivity.
Qed.
Lemma segment_file_inj j a b j' a' b' name : segment_file j a b name -> segment_file j' a' b' name -> j = j' /\ a = a' /\ b = b'.
Proof.
  intros (sj & sa & sb & Hj & Ha & Hb & ->) (sj' & sa' & sb' & Hj' & Ha' & Hb' & E).
  apply app_inv_head in E. change (lit "_") with ["_"%char] in E. change (lit "-") with ["-"%char] in E. cbn [app] in E.
  apply stop_unique in E; try (eapply Forall_impl; [|eapply decimal_digits; eassumption]; intros c [U1 U2]; assumption).
  destruct E as [-> E]. apply stop_unique in E; try (eapply Forall_impl; [|eapply decimal_digits; eassumption]; intros c [U1 U2]; assumption).
  destruct E as [-> E]. apply app_inv_tail in E. subst sb'.
  split; [exact (decimal_inj _ _ Hj _ Hj')|]. split; [exact (decimal_inj _ _ Ha _ Ha')|exact (decimal_inj _ _ Hb _ Hb')].
Qed.
Lemma segment_name_inj j s j' s' : segment_name j s = segment_name j' s' -> j = j'.
Proof.
  intros E. pose proof (segment_name_spec j s) as H. pose proof (segment_name_spec j' s') as H'. rewrite <- E in H'.
  destruct (segment_file_inj _ _ _ _ _ _ _ H H') as [K _]. exact K.
Qed.

(** ** Pairs *)
Definition pair_at (inds : list nat) (j : nat) : nat * nat :=
  (Nat.min (nth (2 * j) inds 0%nat) (nth (2 * j + 1) inds 0%nat), Nat.max (nth (2 * j) inds 0%nat) (nth (2 * j + 1) inds 0%nat)).
Lemma slice2 (l : list nat) i : (i + 1 < len l)%nat -> slice l i (i + 2) = [nth i l 0%nat; nth (i + 1) l 0%nat].
Proof.
  intros H. assert (L : len (slice l i (i + 2)) = 2%nat) by (rewrite slice_length; lia).
  destruct (slice l i (i + 2)) as [|a [|b [|c t]]] eqn:E; cbn in L; try lia.
  f_equal; [|f_equal].
  - change a with (nth 0 [a; b] 0%nat). rewrite <- E, nth_slice by lia. f_equal. lia.
  - change b with (nth 1 [a; b] 0%nat). rewrite <- E, nth_slice by lia. f_equal.
Qed.
Lemma segments_even inds : (len inds mod 2 = 0)%nat -> segments inds = Ok (map (pair_at inds) (seq 0 (len inds / 2))).
Proof.
  intros H. unfold segments, range2. pose proof (Nat.div_mod (len inds) 2 ltac:(lia)) as D.
  assert (E : ((len inds + 1) / 2 = len inds / 2)%nat).
  { rewrite D at 1. rewrite H, Nat.add_0_r. replace (2 * (len inds / 2) + 1)%nat with (1 + (len inds / 2) * 2)%nat by lia. rewrite Nat.div_add by lia. reflexivity. }
  rewrite E.
  assert (G : forall n, (n <= len inds / 2)%nat -> forall k, (k + n = len inds / 2)%nat ->
    mapM (fun i => do a <- py_min (slice inds i (i + 2)); do b <- py_max (slice inds i (i + 2)); Ok (a, b)) (map (fun k => 2 * k)%nat (seq k n)) = Ok (map (pair_at inds) (seq k n))).
  { induction n as [|n IH]; intros Hn k Hk; [reflexivity|]. cbn [seq map mapM]. rewrite slice2 by lia. cbn [py_min py_max fold_left bind].
    rewrite (IH ltac:(lia) (S k) ltac:(lia)). cbn [bind]. reflexivity. }
  apply G; lia.
Qed.
Lemma even_inds_spec inds : (len (even_inds inds) mod 2 = 0)%nat /\ (len (even_inds inds) / 2 = len inds / 2)%nat /\
  forall k, (k < len (even_inds inds))%nat -> nth k (even_inds inds) 0%nat = nth k inds 0%nat.
Proof.
  unfold even_inds. destruct (len inds mod 2 =? 0)%nat eqn:E.
  - apply Nat.eqb_eq in E. auto.
  - apply Nat.eqb_neq in E. destruct inds as [|a t] using rev_ind; [contradiction E; reflexivity|]. clear IHt.
    rewrite removelast_last. rewrite app_length in E |- *. cbn [len] in E |- *.
    pose proof (Nat.mod_upper_bound (len t) 2 ltac:(lia)) as B. pose proof (Nat.div_mod (len t) 2 ltac:(lia)) as D.
    destruct (Nat.eq_dec (len t mod 2) 0) as [Z|Z].
    + split; [exact Z|]. split.
      * rewrite D at 2. rewrite Z, Nat.add_0_r. replace (2 * (len t / 2) + 1)%nat with (1 + (len t / 2) * 2)%nat by lia. rewrite Nat.div_add by lia. reflexivity.
      * intros k Hk. rewrite app_nth1 by lia. reflexivity.
    + exfalso. apply E. rewrite D. replace (2 * (len t / 2) + len t mod 2 + 1)%nat with (0 + (len t / 2 + 1) * 2)%nat by lia. rewrite Nat.mod_add by lia. reflexivity.
Qed.
Lemma picked_segments inds : exists segs, segments (even_inds inds) = Ok segs /\ len segs = (len inds / 2)%nat /\
  forall j s, nth_error segs j = Some s <-> segment inds j (fst s) (snd s).
Proof.
  destruct (even_inds_spec inds) as (E0 & E1 & E2). exists (map (pair_at (even_inds inds)) (seq 0 (len (even_inds inds) / 2))).
  split; [apply segments_even; exact E0|]. split; [rewrite map_length, seq_length; exact E1|].
  pose proof (Nat.div_mod (len (even_inds inds)) 2 ltac:(lia)) as D. pose proof (Nat.div_mod (len inds) 2 ltac:(lia)) as D'.
  pose proof (Nat.mod_upper_bound (len inds) 2 ltac:(lia)) as B.
  assert (G : forall k, (k < len inds)%nat -> nth_error inds k = Some (nth k inds 0%nat)) by (intros k Hk; apply nth_error_nth'; exact Hk).
  intros j [a b]. cbn [fst snd]. split.
  - intros H. assert (J : (j < len (even_inds inds) / 2)%nat).
    { assert (K : nth_error (map (pair_at (even_inds inds)) (seq 0 (len (even_inds inds) / 2))) j <> None) by congruence.
      apply nth_error_Some in K. rewrite map_length, seq_length in K. exact K. }
    rewrite (map_nth_error _ j (seq 0 (len (even_inds inds) / 2)) (d := j)) in H
      by (rewrite (nth_error_nth' _ 0%nat) by (rewrite seq_length; exact J); rewrite seq_nth by exact J; reflexivity).
    unfold pair_at in H. rewrite !E2 in H by lia. injection H as <- <-.
    exists (nth (2 * j) inds 0%nat), (nth (2 * j + 1) inds 0%nat). split; [apply G; lia|]. split; [apply G; lia|].
    change (j + (j + 0))%nat with (2 * j)%nat.
    destruct (Nat.le_ge_cases (nth (2 * j) inds 0%nat) (nth (2 * j + 1) inds 0%nat)) as [L|L]; [left|right]; lia.
  - intros (p & q & Hp & Hq & C).
    assert (J : (2 * j + 1 < len inds)%nat) by (apply nth_error_Some; congruence).
    assert (J' : (j < len (even_inds inds) / 2)%nat) by lia.
    rewrite (map_nth_error _ j (seq 0 (len (even_inds inds) / 2)) (d := j))
      by (rewrite (nth_error_nth' _ 0%nat) by (rewrite seq_length; exact J'); rewrite seq_nth by exact J'; reflexivity).
    unfold pair_at. rewrite !E2 by lia. rewrite (nth_error_nth _ _ 0%nat Hp), (nth_error_nth _ _ 0%nat Hq).
    f_equal. f_equal; destruct C as [(-> & -> & L)|(-> & -> & L)]; lia.
Qed.

(** ** Passes *)
Lemma pick_loop_accepted e minx maxy dot0 passes evs : data e <> [] -> accepted passes evs ->
  exists stack segs, picks (data e) evs stack /\ pick_loop e minx maxy dot0 passes = Some (Ok segs) /\ len segs = (len stack / 2)%nat /\
  forall j s, nth_error segs j = Some s <-> segment stack j (fst s) (snd s).
Proof.
  intros Hd. induction 1 as [evs answer rest H|evs answer rest evs' H1 H2 Hr IH]; cbn [pick_loop];
    destruct (run_picks e minx maxy dot0 evs Hd) as [st [Hp [Hi _]]]; destruct (picked_segments (i_seg (run e (init minx maxy dot0) evs))) as (segs & -> & K1 & K2).
  - exists st, segs. rewrite Hi in *. split; [exact Hp|]. split; [|split; assumption].
    replace (str_eqb (or_default (lit "y") answer) (lit "y")) with true; [reflexivity|].
    symmetry. destruct H as [->| ->]; reflexivity.
  - replace (str_eqb (or_default (lit "y") answer) (lit "y")) with false; [exact IH|].
    symmetry. apply str_eqb_neq. unfold or_default. destruct answer; [contradiction|exact H2].
Qed.
Lemma pick_loop_never e minx maxy dot0 passes : data e <> [] -> (forall evs, ~ accepted passes evs) -> pick_loop e minx maxy dot0 passes = None.
Proof.
  intros Hd. induction passes as [|[evs answer] rest IH]; intros H; [reflexivity|]. cbn [pick_loop].
  destruct (picked_segments (i_seg (run e (init minx maxy dot0) evs))) as (segs & -> & _).
  destruct answer as [|c answer]; [exfalso; apply (H evs); constructor; left; reflexivity|]. cbn [or_default].
  destruct (str_eqb (c :: answer) (lit "y")) eqn:E.
  - apply str_eqb_eq in E. exfalso. apply (H evs). constructor. right. exact E.
  - apply str_eqb_neq in E. apply IH. intros evs' K. apply (H evs'). constructor; [discriminate|exact E|exact K].
Qed.

(** ** The directory *)
Lemma lookup_filter (A : Type) (d : dir A) n m : str_eqb n m = false -> lookup (filter (fun f => negb (str_eqb (fst f) n)) d) m = lookup d m.
Proof.
  intros H. induction d as [|[k c] d IH]; [reflexivity|]. cbn [filter lookup fst]. destruct (str_eqb k n) eqn:E; cbn [negb].
  - apply str_eqb_eq in E. subst k. rewrite H. exact IH.
  - cbn [lookup]. destruct (str_eqb k m); [reflexivity|exact IH].
Qed.
Lemma lookup_store (A : Type) (d : dir A) n c m : lookup (store d n c) m = if str_eqb n m then Some c else lookup d m.
Proof. unfold store. cbn [lookup]. destruct (str_eqb n m) eqn:E; [reflexivity|]. apply lookup_filter. exact E. Qed.
Lemma write_other (A : Type) (table : list A) segs : forall i d name, (forall k s, nth_error segs k = Some s -> segment_name (i + k) s <> name) ->
  lookup (write_segments table i segs d) name = lookup d name.
Proof.
  induction segs as [|s segs IH]; intros i d name H; [reflexivity|]. cbn [write_segments]. rewrite IH.
  - rewrite lookup_store. replace (str_eqb (segment_name i s) name) with false; [reflexivity|].
    symmetry. apply str_eqb_neq. specialize (H 0%nat s eq_refl). rewrite Nat.add_0_r in H. exact H.
  - intros k s' Hk. specialize (H (S k) s' Hk). rewrite Nat.add_succ_r in H. exact H.
Qed.
Lemma write_named (A : Type) (table : list A) segs : forall i d k s, nth_error segs k = Some s ->
  lookup (write_segments table i segs d) (segment_name (i + k) s) = Some (slice table (fst s) (snd s)).
Proof.
  induction segs as [|s0 segs IH]; intros i d [|k] s Hk; try discriminate; cbn [write_segments].
  - injection Hk as ->. rewrite Nat.add_0_r. rewrite write_other.
    + rewrite lookup_store. replace (str_eqb (segment_name i s) (segment_name i s)) with true; [reflexivity|]. symmetry. apply str_eqb_eq. reflexivity.
    + intros k' s' _ E. apply segment_name_inj in E. lia.
  - rewrite Nat.add_succ_r. apply (IH (S i)). exact Hk.
Qed.
Lemma lookup_prepare (A : Type) (d : dir A) answer name : (answer = lit "c" -> lookup (prepare d answer) name = None) /\
  (answer <> lit "c" -> lookup (prepare d answer) name = lookup d name).
Proof.
  unfold prepare. destruct d as [|f d]; [split; reflexivity|]. split; intros H.
  - subst. reflexivity.
  - replace (str_eqb (or_default (lit "k") answer) (lit "c")) with false; [reflexivity|]. symmetry. apply str_eqb_neq.
    destruct answer; [discriminate|exact H].
Qed.
Lemma trim_without_edges (A : Type) (full table : list A) : without_edges full table <-> table = trim full.
Proof.
  assert (T : without_edges full (trim full)).
  { unfold trim, slice_neg, pick_taps, slice, without_edges. rewrite firstn_length, skipn_length. split; [lia|]. intros k Hk.
    assert (F : forall n (l : list A) i, (i < n)%nat -> nth_error (firstn n l) i = nth_error l i).
    { clear. induction n as [|n IH]; intros l i Hi; [lia|]. destruct l as [|a l]; [destruct i; reflexivity|]. destruct i as [|i]; [reflexivity|]. cbn. apply IH. lia. }
    rewrite F by lia.
    assert (S : forall n (l : list A) i, nth_error (skipn n l) i = nth_error l (n + i)).
    { clear. induction n as [|n IH]; intros l i; [reflexivity|]. destruct l as [|a l]; [destruct i; reflexivity|]. apply IH. }
    apply S. }
  split; [|intros ->; exact T]. intros [L H]. destruct T as [L' H'].
  assert (X : forall (l m : list A), (forall k, nth_error l k = nth_error m k) -> l = m).
  { clear. induction l as [|a l IH]; intros [|b m] E; [reflexivity|discriminate (E 0%nat)|discriminate (E 0%nat)|].
    pose proof (E 0%nat) as E0. injection E0 as ->. f_equal. apply IH. intros k. exact (E (S k)). }
  apply X. intros k. destruct (Nat.lt_ge_cases k (len table)) as [Q|Q].
  - rewrite H by exact Q. rewrite H' by lia. reflexivity.
  - rewrite (proj2 (nth_error_None _ _) Q). symmetry. apply nth_error_None. lia.
Qed.
Lemma slice_rows (A : Type) (table : list A) a b : (b <= len table)%nat -> rows_from_to table a b (slice table a b).
Proof.
  intros H. unfold rows_from_to, slice. rewrite firstn_length, skipn_length. split; [lia|]. intros k Hk.
  assert (F : forall n (l : list A) i, (i < n)%nat -> nth_error (firstn n l) i = nth_error l i).
  { clear. induction n as [|n IH]; intros l i Hi; [lia|]. destruct l as [|x l]; [destruct i; reflexivity|]. destruct i as [|i]; [reflexivity|]. cbn. apply IH. lia. }
  rewrite F by lia. clear. revert table. induction a as [|a IH]; intros l; [reflexivity|]. destruct l as [|x l]; [destruct k; reflexivity|]. apply IH.
Qed.
Lemma picks_bound d evs st : picks d evs st -> Forall (fun i => (i < len d)%nat) st.
Proof.
  induction 1 as [|evs st x i H IH N|evs st H IH|evs st i xd H IH|evs xd H IH|evs st b xd H IH|evs st ia xd H IH]; try assumption; try constructor.
  - apply Forall_app. split; [exact IH|]. constructor; [|constructor]. destruct N as (r & Hr & _). apply nth_error_Some. congruence.
  - apply Forall_app in IH. tauto.
Qed.
Lemma segment_bound st n j a b : Forall (fun i => (i < n)%nat) st -> segment st j a b -> (a <= b < n)%nat.
Proof.
  intros F (p & q & Hp & Hq & C). rewrite Forall_forall in F. pose proof (F _ (nth_error_In _ _ Hp)). pose proof (F _ (nth_error_In _ _ Hq)). cbn beta in *. lia.
Qed.

(** ** The whole script *)
Lemma line_pick_accepted (A : Type) (view : A -> row) full table ffaa minx maxy passes evs d answer :
  without_edges full table -> table <> [] -> accepted passes evs ->
  exists stack D, picks (map view table) evs stack /\ line_pick view full ffaa minx maxy passes d answer = Some (Ok D) /\
  (forall j a b, segment stack j a b -> (a <= b < len table)%nat) /\
  (forall j a b name, segment stack j a b -> segment_file j a b name -> exists c, lookup D name = Some c /\ rows_from_to table a b c) /\
  (forall name, (forall j a b, segment stack j a b -> ~ segment_file j a b name) ->
     (answer = lit "c" -> lookup D name = None) /\ (answer <> lit "c" -> lookup D name = lookup d name)).
Proof.
  intros HT Hne Ha. pose proof HT as HT'. apply trim_without_edges in HT'. unfold line_pick. rewrite <- HT'.
  destruct (map view table) as [|r0 rs] eqn:ER; [destruct table; [contradiction|discriminate]|]. rewrite <- ER.
  set (e := Env (combine (map tsec (map view table)) (trim ffaa)) (map view table)).
  assert (Hd : data e <> []) by (cbn [data e]; rewrite ER; discriminate).
  destruct (pick_loop_accepted e minx maxy (lon_new r0, lat_new r0) passes evs Hd Ha) as (stack & segs & Hp & -> & _ & HS).
  exists stack, (write_segments table 0 segs (prepare d answer)). split; [exact Hp|]. split; [reflexivity|].
  assert (B : forall j a b, segment stack j a b -> (a <= b < len table)%nat).
  { intros j a b H. apply (segment_bound stack (len table) j a b); [|exact H]. pose proof (picks_bound _ _ _ Hp) as F. cbn [data e] in F. rewrite map_length in F. exact F. }
  split; [exact B|]. split.
  - intros j a b name Hs Hn. rewrite (segment_file_name _ _ _ _ Hn). exists (slice table a b). split.
    + change (Some (slice table a b)) with (Some (slice table (fst (a, b)) (snd (a, b)))).
      apply (write_named A table segs 0 (prepare d answer) j (a, b)). apply HS. exact Hs.
    + apply slice_rows. specialize (B j a b Hs). lia.
  - intros name H. rewrite (write_other A table segs 0).
    + apply lookup_prepare.
    + intros k s Hk E. apply HS in Hk. apply (H k (fst s) (snd s) Hk). rewrite <- E. apply segment_name_spec.
Qed.
Lemma line_pick_never (A : Type) (view : A -> row) full table ffaa minx maxy passes d answer :
  without_edges full table -> table <> [] -> (forall evs, ~ accepted passes evs) ->
  line_pick view full ffaa minx maxy passes d answer = None.
Proof.
  intros HT Hne Ha. apply trim_without_edges in HT. unfold line_pick. rewrite <- HT.
  destruct (map view table) as [|r0 rs] eqn:ER; [destruct table; [contradiction|discriminate]|]. rewrite <- ER.
  rewrite pick_loop_never; [reflexivity| |exact Ha]. cbn [data]. rewrite ER. discriminate.
Qed.
Lemma line_pick_short (A : Type) (view : A -> row) full ffaa minx maxy passes d answer : (len full <= 720)%nat ->
  line_pick view full ffaa minx maxy passes d answer = Some (Raise IndexError).
Proof.
  intros H. unfold line_pick. assert (T : trim full = []); [|rewrite T; reflexivity].
  destruct (proj2 (trim_without_edges A full (trim full)) eq_refl) as [L _]. destruct (trim full); [reflexivity|]. cbn in L. lia.
Qed.
