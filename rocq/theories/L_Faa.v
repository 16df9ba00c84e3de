(** Lemmas on navigation cleaning, interpolation and the free-air anomaly. *)
From Coq Require Import ZArith Reals Lia Lra Arith List Bool.
From Verif Require Import M_Py L_Base M_Np M_Cal M_Cursor L_Cursor M_Corr M_Tide S_Faa M_Faa.
Import ListNotations.
Open Scope R_scope.

(** ** Dropping rows *)
Lemma nav_bad_spec lon i : In i (nav_bad lon) <-> jump_east (fun k => nth k lon None) i.
Proof.
  unfold nav_bad, jump_east. rewrite filter_In, in_seq. split.
  - intros [_ H]. destruct (nth i lon None) as [a|]; [|discriminate]. destruct (nth (S i) lon None) as [b|]; [|discriminate].
    destruct (Rlt_dec 1 (b - a)); [|discriminate]. exists a, b. repeat split; lra.
  - intros (a & b & Ea & Eb & H). rewrite Ea, Eb. split.
    + destruct (Nat.lt_ge_cases (S i) (length lon)) as [L|L]; [lia|]. rewrite nth_overflow in Eb by exact L. discriminate.
    + destruct (Rlt_dec 1 (b - a)); [reflexivity|lra].
Qed.
Lemma drop_rows_go (A : Type) bad (l : list A) : forall k,
  without (fun i => In i bad) k l (map snd (filter (fun p => negb (existsb (Nat.eqb (fst p)) bad)) (combine (seq k (length l)) l))).
Proof.
  induction l as [|a l IH]; intros k; [constructor|]. cbn [length seq combine filter fst].
  destruct (existsb (Nat.eqb k) bad) eqn:E; cbn [negb].
  - apply without_drop; [|apply IH]. apply existsb_exists in E. destruct E as (x & Hx & Ex). apply Nat.eqb_eq in Ex. subst. exact Hx.
  - cbn [map snd]. apply without_keep; [|apply IH]. intros Hi. assert (K : existsb (Nat.eqb k) bad = true) by (apply existsb_exists; exists k; split; [exact Hi|apply Nat.eqb_refl]). congruence.
Qed.
Lemma without_weaken (A : Type) (P Q : nat -> Prop) k (l l' : list A) : (forall i, P i <-> Q i) -> without P k l l' -> without Q k l l'.
Proof. intros E. induction 1; [constructor|apply without_drop; [apply E; assumption|assumption]|apply without_keep; [rewrite <- E; assumption|assumption]]. Qed.
Lemma without_fun (A : Type) (P : nat -> Prop) k (l l' : list A) : without P k l l' -> forall l'', without P k l l'' -> l' = l''.
Proof. induction 1; intros l'' H'; inversion H'; subst; try contradiction; [reflexivity|apply IHwithout; assumption|f_equal; apply IHwithout; assumption]. Qed.
Lemma without_nth (A : Type) (P : nat -> Prop) k (l l' : list A) : without P k l l' -> forall a, In a l' <-> exists i, nth_error l i = Some a /\ ~ P (k + i)%nat.
Proof.
  induction 1 as [k|k b l l' Hb H IH|k b l l' Hb H IH]; intros a.
  - split; [intros []|intros ([|i] & E & _); discriminate].
  - rewrite IH. split; intros (i & E & N).
    + exists (S i). rewrite Nat.add_succ_r. split; assumption.
    + destruct i as [|i]; [rewrite Nat.add_0_r in N; contradiction|]. exists i. rewrite Nat.add_succ_r in N. split; assumption.
  - cbn [In]. rewrite IH. split.
    + intros [->|(i & E & N)]; [exists 0%nat; rewrite Nat.add_0_r; split; [reflexivity|exact Hb]|]. exists (S i). rewrite Nat.add_succ_r. split; assumption.
    + intros ([|i] & E & N); [left; injection E as ->; reflexivity|]. right. exists i. rewrite Nat.add_succ_r in N. split; assumption.
Qed.
Lemma nth_map_lon nav k : nth k (map f_lon nav) None = match nth_error nav k with Some f => f_lon f | None => None end.
Proof. revert nav. induction k as [|k IH]; intros [|f nav]; cbn; try reflexivity. apply IH. Qed.
Lemma clean_nav_exact nav : without (jump_east (fun k => nth k (map f_lon nav) None)) 0 nav (clean_nav nav).
Proof.
  unfold clean_nav, drop_rows. apply (without_weaken _ (fun i => In i (nav_bad (map f_lon nav)))); [intros i; apply nav_bad_spec|]. apply drop_rows_go.
Qed.

(** ** Interpolation *)
Lemma ascending_nth l i j : ascending l -> (i < length l)%nat -> (j < length l)%nat -> nth i l 0 < nth j l 0 <-> (i < j)%nat.
Proof.
  intros H Hi Hj. split; [|intros; apply H; lia]. intros L. destruct (Nat.lt_trichotomy i j) as [C|[C|C]]; [exact C|subst; lra|].
  specialize (H j i ltac:(lia)). lra.
Qed.
Lemma bracket_index xs t k : ascending xs -> bracket xs t k -> interp_index xs t = S k.
Proof.
  intros A (H1 & H2 & H3). destruct (searchsorted_spec xs t) as (S1 & S2 & S3). unfold interp_index. set (q := searchsorted xs t) in *.
  assert (Q1 : (k < q)%nat \/ k = O).
  { destruct H2 as [->|H2]; [right; reflexivity|]. left. destruct (Nat.lt_ge_cases k q) as [C|C]; [exact C|]. exfalso.
    assert (q < length xs)%nat by lia. specialize (S3 H). destruct (Nat.eq_dec q k) as [->|N]; [lra|]. pose proof (A q k ltac:(lia)). lra. }
  assert (Q2 : (q <= S k)%nat \/ S (S k) = length xs).
  { destruct H3 as [->|H3]; [right; reflexivity|]. left. destruct (Nat.le_gt_cases q (S k)) as [C|C]; [exact C|]. exfalso. pose proof (S2 (S k) C). lra. }
  lia.
Qed.
Lemma bracket_exists xs t : ascending xs -> (2 <= length xs)%nat -> bracket xs t (interp_index xs t - 1).
Proof.
  intros A H. destruct (searchsorted_spec xs t) as (S1 & S2 & S3). unfold bracket, interp_index. set (q := searchsorted xs t) in *.
  split; [lia|]. split.
  - destruct (Nat.le_gt_cases q 1) as [C|C]; [left; lia|]. right. apply S2. lia.
  - destruct (Nat.le_gt_cases (length xs - 1) q) as [C|C]; [left; lia|]. right.
    replace (S (Nat.min (Nat.max q 1) (length xs - 1) - 1)) with (Nat.max q 1) by lia.
    assert (B : t <= nth q xs 0) by (apply S3; lia). destruct (Nat.eq_dec q 0) as [E|E].
    + pose proof (A 0%nat 1%nat ltac:(lia)). rewrite E in *. cbn [Nat.max]. lra.
    + replace (Nat.max q 1) with q by lia. exact B.
Qed.
Lemma bracket_unique xs t k k' : ascending xs -> bracket xs t k -> bracket xs t k' -> k = k'.
Proof. intros A H H'. pose proof (bracket_index _ _ _ A H). pose proof (bracket_index _ _ _ A H'). lia. Qed.
Lemma interp1d_bracket xs ys t k : ascending xs -> bracket xs t k -> interp1d xs ys t =
  match nth k ys None, nth (S k) ys None with
  | Some a, Some b => Some ((b - a) / (nth (S k) xs 0 - nth k xs 0) * (t - nth k xs 0) + a)
  | _, _ => None
  end.
Proof. intros A H. unfold interp1d. rewrite (bracket_index _ _ _ A H). replace (S k - 1)%nat with k by lia. reflexivity. Qed.
Lemma interp1d_line xs ys t k a b : ascending xs -> bracket xs t k -> nth k ys None = Some a -> nth (S k) ys None = Some b ->
  exists v, interp1d xs ys t = Some v /\ on_line (nth k xs 0) a (nth (S k) xs 0) b t v.
Proof.
  intros A H Ea Eb. rewrite (interp1d_bracket _ _ _ _ A H), Ea, Eb. eexists. split; [reflexivity|]. unfold on_line.
  assert (nth k xs 0 < nth (S k) xs 0) by (apply A; destruct H; lia). field. lra.
Qed.
Lemma interp1d_between xs ys t k a b v : ascending xs -> bracket xs t k -> nth k ys None = Some a -> nth (S k) ys None = Some b ->
  nth 0 xs 0 <= t <= nth (length xs - 1) xs 0 -> interp1d xs ys t = Some v -> Rmin a b <= v <= Rmax a b.
Proof.
  intros A H Ea Eb Ht E. pose proof H as (H1 & H2 & H3).
  assert (L : nth k xs 0 < nth (S k) xs 0) by (apply A; lia).
  assert (T0 : nth k xs 0 <= t) by (destruct H2 as [->|H2]; lra).
  assert (T1 : t <= nth (S k) xs 0) by (destruct H3 as [H3|H3]; [replace (S k) with (length xs - 1)%nat by lia; lra|exact H3]).
  rewrite (interp1d_bracket _ _ _ _ A H), Ea, Eb in E. injection E as <-.
  set (x0 := nth k xs 0) in *. set (x1 := nth (S k) xs 0) in *.
  assert (F : 0 <= (t - x0) / (x1 - x0) <= 1).
  { split; [apply Rmult_le_pos; [lra|left; apply Rinv_0_lt_compat; lra]|]. apply Rmult_le_reg_r with (x1 - x0); [lra|]. unfold Rdiv. rewrite Rmult_assoc, Rinv_l by lra. lra. }
  replace ((b - a) / (x1 - x0) * (t - x0) + a) with (a + (b - a) * ((t - x0) / (x1 - x0))) by (field; lra).
  set (f := (t - x0) / (x1 - x0)) in *. unfold Rmin, Rmax. destruct (Rle_dec a b); nra.
Qed.
Lemma interp1d_affine xs ys p q t : ascending xs -> (2 <= length xs)%nat -> length ys = length xs ->
  (forall k, (k < length xs)%nat -> nth k ys None = Some (p + q * nth k xs 0)) -> interp1d xs ys t = Some (p + q * t).
Proof.
  intros A H L Hy. pose proof (bracket_exists xs t A H) as B. set (k := (interp_index xs t - 1)%nat) in *.
  rewrite (interp1d_bracket _ _ _ _ A B). pose proof B as (B1 & _).
  rewrite !Hy by lia. assert (nth k xs 0 < nth (S k) xs 0) by (apply A; lia). f_equal. field. lra.
Qed.
Lemma interp1d_at_fix xs ys k a : ascending xs -> (2 <= length xs)%nat -> (k < length xs)%nat -> nth k ys None = Some a ->
  (match k with O => nth 1 ys None | S j => nth j ys None end <> None) -> interp1d xs ys (nth k xs 0) = Some a.
Proof.
  intros A H Hk Ea N. destruct k as [|j].
  - assert (B : bracket xs (nth 0 xs 0) 0) by (split; [lia|]; split; [left; reflexivity|right; left; apply A; lia]).
    rewrite (interp1d_bracket _ _ _ _ A B), Ea. destruct (nth 1 ys None) as [b|]; [|contradiction N; reflexivity]. f_equal.
    assert (nth 0 xs 0 < nth 1 xs 0) by (apply A; lia). field. lra.
  - assert (B : bracket xs (nth (S j) xs 0) j) by (split; [lia|]; split; [right; apply A; lia|right; apply Rle_refl]).
    rewrite (interp1d_bracket _ _ _ _ A B), Ea. destruct (nth j ys None) as [b|]; [|contradiction N; reflexivity]. f_equal.
    assert (nth j xs 0 < nth (S j) xs 0) by (apply A; lia). field. lra.
Qed.
Lemma finite_spec l m : finite l = Some m <-> l = map Some m.
Proof.
  revert m. induction l as [|o l IH]; intros m; cbn.
  - split; [intros [= <-]; reflexivity|intros E; destruct m; [reflexivity|discriminate]].
  - fold (finite l). destruct o as [x|].
    + destruct (finite l) as [t|] eqn:E.
      * split; [intros [= <-]; cbn; rewrite (proj1 (IH t) eq_refl); reflexivity|]. intros K. destruct m as [|y m]; [discriminate|]. injection K as -> K. apply IH in K. congruence.
      * split; [discriminate|]. intros K. destruct m as [|y m]; [discriminate|]. injection K as _ K. apply IH in K. congruence.
    + split; [discriminate|]. intros K. destruct m; discriminate.
Qed.

(** ** The anomaly *)
Lemma finite_map (l : list R) : finite (map Some l) = Some l.
Proof. apply finite_spec. reflexivity. Qed.
Lemma map2_repeat_r (A B C : Type) (f : A -> B -> C) l b : map2 f l (repeat b (length l)) = map (fun a => f a b) l.
Proof. induction l as [|a l IH]; [reflexivity|]. cbn. rewrite IH. reflexivity. Qed.
Lemma map2_len (A B C : Type) (f : A -> B -> C) l m : length l = length m -> length (map2 f l m) = length l.
Proof. revert m. induction l as [|a l IH]; intros [|b m] H; cbn in *; try discriminate; [reflexivity|]. rewrite IH; [reflexivity|lia]. Qed.
Lemma map2_nth (f : R -> R -> R) l m k : length l = length m -> (k < length l)%nat -> nth k (map2 f l m) 0 = f (nth k l 0) (nth k m 0).
Proof. revert m k. induction l as [|a l IH]; intros [|b m] [|k] H K; cbn in *; try lia; [reflexivity|]. apply IH; lia. Qed.
Lemma corrected_ok grav lon lat times samp n E g :
  length grav = n -> length lon = n -> length lat = n -> eotvos_full lon lat (repeat 0 n) samp 6378137 6356752.3142 = Ok E -> length E = n ->
  longman_tide_prediction lon lat times (Alt 0) false = Ok (Total g) -> length g = n ->
  exists faa full, corrected grav lon lat times samp = Ok (faa, full) /\ length faa = n /\ length full = n /\
  forall k, (k < n)%nat -> nth k full 0 = nth k grav 0 + nth k E 0 + nth k g 0 /\
    nth k faa 0 = nth k full 0 - (wgs_grav (nth k lat 0) + free_air_second_order (nth k lat 0) 0 false).
Proof.
  intros Hg Hlon Hlat HE LE HT LT. unfold corrected. rewrite Hlat, HE. cbn [bind]. rewrite HT. cbn [bind].
  eexists. eexists. split; [reflexivity|].
  assert (L0 : length (map2 (fun l h : R => wgs_grav l + free_air_second_order l h false) lat (repeat 0 n)) = n) by (rewrite map2_len; rewrite ?repeat_length; assumption).
  assert (L1 : length (map2 Rminus grav (map2 (fun l h : R => wgs_grav l + free_air_second_order l h false) lat (repeat 0 n))) = n) by (rewrite map2_len; lia).
  assert (L2 : length (map2 Rplus (map2 Rminus grav (map2 (fun l h : R => wgs_grav l + free_air_second_order l h false) lat (repeat 0 n))) E) = n) by (rewrite map2_len; lia).
  assert (L3 : length (map2 Rplus grav E) = n) by (rewrite map2_len; lia).
  split; [rewrite map2_len; lia|]. split; [rewrite map2_len; lia|]. intros k Hk.
  rewrite !map2_nth by (rewrite ?repeat_length; lia). rewrite nth_repeat. split; ring.
Qed.
Lemma interp_shift xs ys c t : interp1d xs (map (option_map (fun x => x + c)) ys) t = option_map (fun x => x + c) (interp1d xs ys t).
Proof.
  unfold interp1d. set (h := interp_index xs t). assert (N : forall i, nth i (map (option_map (fun x => x + c)) ys) None = option_map (fun x => x + c) (nth i ys None)) by (intros i; change None with (option_map (fun x : R => x + c) None) at 1; apply map_nth).
  rewrite !N. destruct (nth (h - 1) ys None) as [a|]; cbn; [|reflexivity]. destruct (nth h ys None) as [b|]; cbn; [|reflexivity]. f_equal. unfold Rdiv. ring.
Qed.
Lemma finite_shift l c : finite (map (option_map (fun x => x + c)) l) = option_map (map (fun x => x + c)) (finite l).
Proof.
  induction l as [|o l IH]; [reflexivity|]. cbn [map finite fold_right]. fold (finite (map (option_map (fun x => x + c)) l)). fold (finite l). rewrite IH.
  destruct o as [x|]; cbn; [|reflexivity]. destruct (finite l); reflexivity.
Qed.
Lemma map2_shift_l (f : R -> R -> R) c l m : (forall a b, f (a + c) b = f a b + c) -> map2 f (map (fun x => x + c) l) m = map (fun x => x + c) (map2 f l m).
Proof. intros H. revert m. induction l as [|a l IH]; intros [|b m]; cbn; try reflexivity. rewrite H, IH. reflexivity. Qed.
Lemma corrected_shift grav lon lat times samp c :
  corrected (map (fun g => g + c) grav) lon lat times samp =
  (do p <- corrected grav lon lat times samp; Ok (map (fun x => x + c) (fst p), map (fun x => x + c) (snd p))).
Proof.
  unfold corrected. destruct (eotvos_full _ _ _ _ _ _); [|reflexivity]. cbn [bind]. destruct (longman_tide_prediction _ _ _ _ _); [|reflexivity]. cbn [bind fst snd].
  repeat (rewrite map2_shift_l; [|intros; ring]). reflexivity.
Qed.
Lemma timestamps times : mapM timestamp times = Ok (map (fun t => match utcoffset t with Some off => IZR (utc_us t off) / 1000000 | None => IZR (local_us t) / 1000000 end) times).
Proof. apply mapM_Ok_map. intros t _. unfold timestamp. destruct (utcoffset t); reflexivity. Qed.
