(** Lemmas for the model with missing values. *)
From Coq Require Import List Bool Arith ZArith Reals Lia Lra.
From Verif Require Import M_Py M_Np M_Cal M_Corr M_Tide M_CC M_Filt M_Faa M_Nan S_Nan L_Np L_Faa.
Import ListNotations.
Open Scope R_scope.

(** [v] is the value of [o], if it has one. *)
Definition fits (o : NR) (v : R) : Prop := match o with Some a => a = v | None => True end.
Definition fitl : list NR -> list R -> Prop := Forall2 fits.

Lemma fits_nf1 f o v : fits o v -> fits (nf1 f o) (f v).
Proof. destruct o; cbn; intros; subst; auto. Qed.
Lemma fits_nf2 f o v p w : fits o v -> fits p w -> fits (nf2 f o p) (f v w).
Proof. destruct o, p; cbn; intros; subst; auto. Qed.
Lemma fits_K c : fits (K c) c.
Proof. reflexivity. Qed.
Lemma nf2_none f o p : nf2 f o p = None <-> o = None \/ p = None.
Proof. destruct o, p; cbn; intuition discriminate. Qed.
Lemma nf1_none f o : nf1 f o = None <-> o = None.
Proof. destruct o; cbn; intuition discriminate. Qed.
Lemma K_none c : K c = None <-> False.
Proof. unfold K. intuition discriminate. Qed.

Lemma fitl_length l v : fitl l v -> length l = length v.
Proof. induction 1; cbn; auto. Qed.
Lemma fitl_nth l v : fitl l v -> forall k, fits (nth k l None) (nth k v 0).
Proof. induction 1; intros [|k]; cbn; auto. Qed.
Lemma completes_fitl v l : completes v l <-> fitl l v.
Proof.
  split.
  - intros [L H]. revert v L H. induction l as [|o l IH]; intros [|x v] L H; try discriminate; constructor.
    + specialize (H 0%nat). cbn in H. destruct o as [a|]; cbn; [|exact I]. specialize (H a eq_refl). congruence.
    + apply IH; [cbn in L; lia|]. intros k y Hk. exact (H (S k) y Hk).
  - intros F. split; [symmetry; apply fitl_length, F|]. intros k x Hk. pose proof (fitl_nth l v F k) as N.
    rewrite (nth_error_nth l k None Hk) in N. cbn in N. subst x. apply nth_error_nth'. rewrite <- (fitl_length l v F). apply nth_error_Some. congruence.
Qed.
Lemma fitl_map (f : NR -> NR) (g : R -> R) l v : (forall o x, fits o x -> fits (f o) (g x)) -> fitl l v -> fitl (map f l) (map g v).
Proof. intros H. induction 1; cbn; constructor; auto. Qed.
Lemma fitl_map2 (f : NR -> NR -> NR) (g : R -> R -> R) l v m w : (forall o x p y, fits o x -> fits p y -> fits (f o p) (g x y)) ->
  fitl l v -> fitl m w -> fitl (map2 f l m) (map2 g v w).
Proof. intros H F. revert m w. induction F; intros m w G; inversion G; subst; cbn; constructor; auto. apply IHF. assumption. Qed.
Lemma fitl_map3 (f : NR -> NR -> NR -> NR) (g : R -> R -> R -> R) l v m w n z : (forall o x p y q u, fits o x -> fits p y -> fits q u -> fits (f o p q) (g x y u)) ->
  fitl l v -> fitl m w -> fitl n z -> fitl (map3 f l m n) (map3 g v w z).
Proof. intros H F. revert m w n z. induction F; intros m w n z G J; inversion G; subst; inversion J; subst; cbn; constructor; auto. apply IHF; assumption. Qed.
Lemma fitl_mapi (A : Type) (f : A -> NR) (g : A -> R) l : (forall a, In a l -> fits (f a) (g a)) -> fitl (map f l) (map g l).
Proof. induction l as [|a l IH]; intros H; cbn; constructor; [apply H; left; reflexivity|]. apply IH. intros b Hb. apply H. right. exact Hb. Qed.
Lemma fitl_app l v m w : fitl l v -> fitl m w -> fitl (l ++ m) (v ++ w).
Proof. apply Forall2_app. Qed.
Lemma fitl_firstn l v n : fitl l v -> fitl (firstn n l) (firstn n v).
Proof. intros F. revert n. induction F; intros [|n]; cbn; constructor; auto. apply IHF. Qed.
Lemma fitl_skipn l v n : fitl l v -> fitl (skipn n l) (skipn n v).
Proof. intros F. revert n. induction F; intros [|n]; cbn; auto; try constructor; auto. Qed.
Lemma fitl_slice l v a b : fitl l v -> fitl (slice l a b) (slice v a b).
Proof. intros. apply fitl_firstn, fitl_skipn. assumption. Qed.
Lemma fitl_rev l v : fitl l v -> fitl (rev l) (rev v).
Proof. induction 1; cbn; [constructor|]. apply fitl_app; [assumption|]. constructor; [assumption|constructor]. Qed.
Lemma fitl_repeat o v n : fits o v -> fitl (repeat o n) (repeat v n).
Proof. intros H. induction n; cbn; constructor; auto. Qed.
Lemma fitl_some v : fitl (map Some v) v.
Proof. induction v; cbn; constructor; auto. reflexivity. Qed.
Lemma fitl_last l v : fitl l v -> fits (last l None) (last v 0).
Proof. induction 1; [exact I|]. cbn. destruct H0; assumption. Qed.
Lemma fitl_full l v : fitl l v -> ~ In None l -> l = map Some v.
Proof. induction 1; intros N; cbn; [reflexivity|]. destruct x as [a|]; [|exfalso; apply N; left; reflexivity]. cbn in H. subst a. f_equal. apply IHForall2. intros I. apply N. right. exact I. Qed.
Definition fill (l : list NR) : list R := map (fun o => match o with Some v => v | None => 0 end) l.
Lemma fill_fitl l : fitl l (fill l).
Proof. induction l as [|[a|] l IH]; cbn; constructor; cbn; auto. Qed.

(** The point formula: all but the second difference of the longitude and the first difference of the height matter. *)
Lemma eotvos_point_unused a b p q r s t t' u v v' w : eotvos_point a b p q r s t u v w = eotvos_point a b p q r s t' u v' w.
Proof. reflexivity. Qed.
Lemma eotvos_point_nan_some a b p q r s t u v w : eotvos_point_nan a b (Some p) (Some q) (Some r) (Some s) t (Some u) v (Some w) = Some (eotvos_point a b p q r s 0 u 0 w).
Proof. destruct t, v; reflexivity. Qed.
Lemma eotvos_point_nan_none a b p q r s t u v w : p = None \/ q = None \/ r = None \/ s = None \/ u = None \/ w = None -> eotvos_point_nan a b p q r s t u v w = None.
Proof. intros H. decompose [or] H; clear H; subst; repeat match goal with o : NR |- _ => destruct o end; reflexivity. Qed.
Lemma eotvos_point_nan_iff a b p q r s t u v w : eotvos_point_nan a b p q r s t u v w = None <-> p = None \/ q = None \/ r = None \/ s = None \/ u = None \/ w = None.
Proof.
  split; [|apply eotvos_point_nan_none]. destruct p, q, r, s, u, w; try tauto. rewrite eotvos_point_nan_some. discriminate.
Qed.
Lemma eotvos_point_fits a b p q r s t u v w p' q' r' s' t' u' v' w' :
  fits p p' -> fits q q' -> fits r r' -> fits s s' -> fits u u' -> fits w w' ->
  fits (eotvos_point_nan a b p q r s t u v w) (eotvos_point a b p' q' r' s' t' u' v' w').
Proof.
  intros. destruct (eotvos_point_nan a b p q r s t u v w) as [e|] eqn:E; [|exact I].
  destruct p as [p|]; [|rewrite eotvos_point_nan_none in E by tauto; discriminate].
  destruct q as [q|]; [|rewrite eotvos_point_nan_none in E by tauto; discriminate].
  destruct r as [r|]; [|rewrite eotvos_point_nan_none in E by tauto; discriminate].
  destruct s as [s|]; [|rewrite eotvos_point_nan_none in E by tauto; discriminate].
  destruct u as [u|]; [|rewrite eotvos_point_nan_none in E by tauto; discriminate].
  destruct w as [w|]; [|rewrite eotvos_point_nan_none in E by tauto; discriminate].
  rewrite eotvos_point_nan_some in E. cbn [fits] in *. subst. injection E as <-. apply eotvos_point_unused.
Qed.

(** Differences. *)
Lemma cd1_fits l v samp : fitl l v -> fitl (center_diff1_nan l samp) (center_diff1 v samp).
Proof.
  intros F. unfold center_diff1_nan, center_diff1. rewrite (fitl_length l v F). apply fitl_map2; [|apply fitl_skipn, F|apply fitl_firstn, F].
  intros. apply fits_nf2; [apply fits_nf2; assumption|reflexivity].
Qed.
Lemma cd2_fits l v samp : fitl l v -> fitl (center_diff2_nan l samp) (center_diff2 v samp).
Proof.
  intros F. unfold center_diff2_nan, center_diff2. rewrite (fitl_length l v F). apply fitl_map3; [|apply fitl_firstn, F|apply fitl_slice, F|apply fitl_skipn, F].
  intros. apply fits_nf2; [|reflexivity]. apply fits_nf2; [|assumption]. apply fits_nf2; [assumption|]. apply fits_nf2; [reflexivity|assumption].
Qed.
Lemma nth_map2n (f : NR -> NR -> NR) l m k : length l = length m -> (k < length l)%nat -> nth k (map2 f l m) None = f (nth k l None) (nth k m None).
Proof. revert m k. induction l as [|a l IH]; intros [|b m] [|k] L H; cbn in *; try lia; auto. apply IH; lia. Qed.
Lemma nth_map3n (A : Type) (f : NR -> NR -> A -> NR) l m n k d : length l = length m -> length l = length n -> (k < length l)%nat -> nth k (map3 f l m n) None = f (nth k l None) (nth k m None) (nth k n d).
Proof. revert m n k. induction l as [|a l IH]; intros [|b m] [|c n] [|k] L L' H; cbn in *; try lia; auto. apply IH; lia. Qed.
Lemma length_map2n (A B C : Type) (f : A -> B -> C) l m : length l = length m -> length (map2 f l m) = length l.
Proof. revert m. induction l as [|a l IH]; intros [|b m] L; cbn in *; try lia; auto. Qed.
Lemma nth_firstn_lt (A : Type) (l : list A) n k d : (k < n)%nat -> nth k (firstn n l) d = nth k l d.
Proof. revert n k. induction l as [|a l IH]; intros [|n] [|k] H; cbn; try lia; auto. apply IH. lia. Qed.
Lemma nth_skipn_add (A : Type) (l : list A) n k d : nth k (skipn n l) d = nth (n + k) l d.
Proof. revert n. induction l as [|a l IH]; intros [|n]; cbn; auto. destruct k; reflexivity. Qed.
Lemma cd1_nth l samp k : (k + 2 < length l)%nat -> nth k (center_diff1_nan l samp) None = None <-> nth k l None = None \/ nth (k + 2) l None = None.
Proof.
  intros H. unfold center_diff1_nan. rewrite nth_map2n by (rewrite ?skipn_length, ?firstn_length; lia).
  rewrite nth_skipn_add, nth_firstn_lt by lia. rewrite !nf2_none, K_none. rewrite (Nat.add_comm 2 k). tauto.
Qed.
Lemma cd2_nth l samp k : (k + 2 < length l)%nat -> nth k (center_diff2_nan l samp) None = None <-> nth k l None = None \/ nth (k + 1) l None = None \/ nth (k + 2) l None = None.
Proof.
  intros H. unfold center_diff2_nan, slice. rewrite (nth_map3n _ _ _ _ _ _ None) by (rewrite ?firstn_length, ?skipn_length; lia).
  rewrite !nth_firstn_lt by lia. rewrite !nth_skipn_add. rewrite !nf2_none, !K_none. rewrite (Nat.add_comm 2 k), (Nat.add_comm 1 k). tauto.
Qed.

(** The Eotvos correction. *)
Lemma nth_map_deg l k : nth k (map (nf1 deg2rad) l) None = nf1 deg2rad (nth k l None).
Proof. rewrite <- (map_nth (nf1 deg2rad) l None k). reflexivity. Qed.
Definition e_point (lon lat ht : list NR) samp a b k : NR :=
  let latr := map (nf1 deg2rad) lat in let lonr := map (nf1 deg2rad) lon in
  eotvos_point_nan a b (nth k (slice latr 1 (length latr - 1)) None)
    (nth k (center_diff1_nan latr samp) None) (nth k (center_diff2_nan latr samp) None) (nth k (center_diff1_nan lonr samp) None) (nth k (center_diff2_nan lonr samp) None)
    (nth k (slice ht 1 (length ht - 1)) None) (nth k (center_diff1_nan ht samp) None) (nth k (center_diff2_nan ht samp) None).
Lemma e_point_none lon lat n samp a b k : length lon = n -> length lat = n -> (k + 2 < n)%nat ->
  e_point lon lat (repeat (K 0) n) samp a b k = None <->
  nth k lat None = None \/ nth (k + 1) lat None = None \/ nth (k + 2) lat None = None \/ nth k lon None = None \/ nth (k + 2) lon None = None.
Proof.
  intros Lo La H. unfold e_point. cbv zeta. rewrite eotvos_point_nan_iff.
  rewrite !cd1_nth, !cd2_nth by (rewrite ?map_length, ?repeat_length; lia).
  unfold slice. rewrite !map_length, repeat_length, La. rewrite !nth_firstn_lt by lia. rewrite !nth_skipn_add. rewrite !nth_map_deg, !nf1_none.
  assert (R : forall j, (j < n)%nat -> nth j (repeat (K 0) n) None = None <-> False).
  { intros j Hj. rewrite (nth_indep _ None (K 0)) by (rewrite repeat_length; exact Hj). rewrite nth_repeat. apply K_none. }
  rewrite !R by lia. rewrite (Nat.add_comm 1 k). tauto.
Qed.
Lemma eotvos_full_nan_ok lon lat ht samp a b n : length lon = n -> length lat = n -> length ht = n -> (3 <= n)%nat ->
  exists E, eotvos_full_nan lon lat ht samp a b = Ok E /\ length E = n /\ forall k, (k < n)%nat -> nth k E None = e_point lon lat ht samp a b (centre n k - 1).
Proof.
  intros Lo La Lh H. unfold eotvos_full_nan. replace (negb _) with false by (rewrite Lo, La, Lh, !Nat.eqb_refl; reflexivity). cbv zeta.
  replace (length (map (nf1 deg2rad) lat) - 2)%nat with (n - 2)%nat by (rewrite map_length, La; reflexivity).
  match goal with |- context[map ?f (seq 0 (n - 2))] => change f with (e_point lon lat ht samp a b) end.
  destruct (n - 2)%nat as [|m] eqn:Em; [lia|]. exists (e_point lon lat ht samp a b 0 :: map (e_point lon lat ht samp a b) (seq 0 (S m)) ++ [last (map (e_point lon lat ht samp a b) (seq 0 (S m))) None]).
  split; [reflexivity|]. split; [cbn [length]; rewrite app_length, map_length, seq_length; cbn; lia|].
  intros [|k] Hk; [unfold centre; cbn [nth]; f_equal; lia|]. cbn [nth].
  destruct (Nat.lt_ge_cases k (S m)) as [Hl|Hl].
  - rewrite app_nth1 by (rewrite map_length, seq_length; exact Hl). rewrite (nth_indep _ None (e_point lon lat ht samp a b 0)) by (rewrite map_length, seq_length; exact Hl).
    rewrite map_nth, seq_nth by exact Hl. f_equal. unfold centre. lia.
  - rewrite app_nth2 by (rewrite map_length, seq_length; exact Hl). rewrite map_length, seq_length. assert (k = S m) by lia. subst k. rewrite Nat.sub_diag. cbn [nth].
    rewrite seq_S, map_app. cbn [map]. rewrite last_last. f_equal. unfold centre. lia.
Qed.
Lemma eotvos_full_fits lon lat ht samp a b lon' lat' ht' : fitl lon lon' -> fitl lat lat' -> fitl ht ht' ->
  match eotvos_full_nan lon lat ht samp a b, eotvos_full lon' lat' ht' samp a b with
  | Ok E, Ok E' => fitl E E' | Raise e, Raise e' => e = e' | _, _ => False end.
Proof.
  intros Fo Fa Fh. unfold eotvos_full_nan, eotvos_full. rewrite (fitl_length _ _ Fo), (fitl_length _ _ Fa), (fitl_length _ _ Fh).
  destruct (negb _) eqn:N; [reflexivity|]. cbv zeta. rewrite !map_length, (fitl_length _ _ Fa).
  assert (Fr : fitl (map (nf1 deg2rad) lat) (map deg2rad lat')) by (apply fitl_map; [intros; apply fits_nf1; assumption|exact Fa]).
  assert (Fl : fitl (map (nf1 deg2rad) lon) (map deg2rad lon')) by (apply fitl_map; [intros; apply fits_nf1; assumption|exact Fo]).
  match goal with |- match match ?m with _ => _ end with _ => _ end => set (E := m) end.
  match goal with |- context[match ?m with [] => Raise IndexError | e0 :: _ => Ok (e0 :: ?m ++ [last ?m 0]) end] => set (E' := m) end.
  assert (F : fitl E E').
  { apply fitl_mapi. intros k _. apply eotvos_point_fits.
    - apply fitl_nth, fitl_slice, Fr.
    - apply fitl_nth, cd1_fits, Fr.
    - apply fitl_nth, cd2_fits, Fr.
    - apply fitl_nth, cd1_fits, Fl.
    - apply fitl_nth, fitl_slice, Fh.
    - apply fitl_nth, cd2_fits, Fh. }
  clearbody E E'. inversion F; subst; [reflexivity|]. constructor; [assumption|]. apply fitl_app; [assumption|]. constructor; [apply fitl_last; assumption|constructor].
Qed.

(** The tide. *)
Lemma tide_nan_ok lon lat times n : length lon = n -> length lat = n -> length times = n -> Forall (fun t => utcoffset t <> None) times ->
  exists g, tide_nan lon lat times = Ok g /\ length g = n /\ forall k, (k < n)%nat -> (nth k g None = None <-> nth k lon None = None \/ nth k lat None = None).
Proof.
  intros Lo La Lt Aw. unfold tide_nan. rewrite Lo, La, Lt, !Nat.eqb_refl. cbn [negb].
  assert (X : exists tts, mapM tide_time times = Ok tts /\ length tts = length times).
  { clear - Aw. induction times as [|t ts IH]; [exists []; split; reflexivity|]. inversion Aw; subst. destruct (IH H2) as (tts & E & L).
    assert (exists p, tide_time t = Ok p) as [p Ep].
    { unfold tide_time, convert_datetime_tidetime, sub_us. destruct (utcoffset t) as [o|]; [|congruence]. cbn. eexists. reflexivity. }
    exists (p :: tts). cbn. rewrite Ep. cbn. rewrite E. cbn. split; [reflexivity|congruence]. }
  destruct X as (tts & -> & Lts). cbn [bind]. eexists. split; [reflexivity|].
  assert (L3 : forall (A : Type) (f : NR -> NR -> A -> NR) l m (p : list A), length l = length m -> length l = length p -> length (map3 f l m p) = length l).
  { clear. intros A f. induction l as [|a l IH]; intros [|b m] [|c p] L L'; cbn in *; try lia; auto. }
  split; [rewrite L3 by lia; exact Lo|]. intros k Hk. rewrite (nth_map3n _ _ _ _ _ _ (0, 0)) by lia. apply nf2_none.
Qed.
Lemma tide_fits lon lat times lon' lat' : fitl lon lon' -> fitl lat lat' ->
  match tide_nan lon lat times, longman_tide_prediction lon' lat' times (Alt 0) false with
  | Ok g, Ok (Total g') => fitl g g' | Raise e, Raise e' => e = e' | _, _ => False end.
Proof.
  intros Fo Fa. unfold tide_nan, longman_tide_prediction. rewrite (fitl_length _ _ Fo), (fitl_length _ _ Fa).
  destruct (negb (length lon' =? length lat')%nat) eqn:N1; [reflexivity|]. destruct (negb (length lon' =? length times)%nat) eqn:N2; [reflexivity|].
  destruct (mapM tide_time times) as [tts|]; [|reflexivity]. cbn [bind]. rewrite negb_false_iff, Nat.eqb_eq in N1. clear N2.
  revert lat lat' Fa tts N1. induction Fo as [|o x lon lon' Hx Fo IH]; intros lat lat' Fa tts N1; [constructor|].
  inversion Fa; subst; [discriminate|]. destruct tts as [|tt tts]; [constructor|]. cbn [map3 map2 map length repeat]. constructor.
  - apply (fits_nf2 (fun x y => fst (fst (t_out x y 0 (snd tt) (fst tt))))); assumption.
  - apply IH; [assumption|]. cbn in N1. lia.
Qed.

(** The reduction. *)
Lemma corrected_fits grav lon lat times samp grav' lon' lat' : fitl grav grav' -> fitl lon lon' -> fitl lat lat' ->
  match corrected_nan grav lon lat times samp, corrected grav' lon' lat' times samp with
  | Ok (f, u), Ok (f', u') => fitl f f' /\ fitl u u' | Raise e, Raise e' => e = e' | _, _ => False end.
Proof.
  intros Fg Fo Fa. unfold corrected_nan, corrected. rewrite (fitl_length _ _ Fa).
  pose proof (fitl_repeat (K 0) 0 (length lat') eq_refl) as Fh.
  pose proof (eotvos_full_fits lon lat _ samp 6378137 6356752.3142 lon' lat' _ Fo Fa Fh) as HE.
  destruct (eotvos_full_nan _ _ _ _ _ _) as [E|e], (eotvos_full _ _ _ _ _ _) as [E'|e']; try contradiction; [|exact HE]. cbn [bind].
  pose proof (tide_fits lon lat times lon' lat' Fo Fa) as HT.
  destruct (tide_nan _ _ _) as [g|e], (longman_tide_prediction _ _ _ _ _) as [[g'|g' gm gs]|e']; try contradiction; [|exact HT]. cbn [bind].
  assert (P : forall f o x p y, fits o x -> fits p y -> fits (nf2 f o p) (f x y)) by (intros; apply fits_nf2; assumption).
  assert (Fl : fitl (map2 (nf2 (fun l h => wgs_grav l + free_air_second_order l h false)) lat (repeat (K 0) (length lat'))) (map2 (fun l h => wgs_grav l + free_air_second_order l h false) lat' (repeat 0 (length lat')))) by (apply fitl_map2; [apply P|exact Fa|exact Fh]).
  split; repeat (apply fitl_map2; [apply P| |]); assumption.
Qed.
Lemma corrected_nan_ok grav lon lat times samp n : length grav = n -> length lon = n -> length lat = n -> length times = n -> (3 <= n)%nat -> Forall (fun t => utcoffset t <> None) times ->
  exists faa full, corrected_nan grav lon lat times samp = Ok (faa, full) /\ length faa = n /\ length full = n /\
    forall k, (k < n)%nat -> (nth k faa None = None <-> blank grav lon lat n k) /\ (nth k full None = None <-> blank grav lon lat n k).
Proof.
  intros Lg Lo La Lt H Aw. unfold corrected_nan. rewrite La.
  destruct (eotvos_full_nan_ok lon lat (repeat (K 0) n) samp 6378137 6356752.3142 n Lo La (repeat_length _ _) H) as (E & -> & LE & VE).
  destruct (tide_nan_ok lon lat times n Lo La Lt Aw) as (g & -> & LG & VG). cbn [bind].
  assert (M : forall l j, length l = n -> (j < n)%nat -> missing l j <-> nth j l None = None).
  { intros l j L Hj. unfold missing. rewrite (nth_error_nth' l None) by lia. split; congruence. }
  assert (LC : length (map2 (nf2 (fun l h => wgs_grav l + free_air_second_order l h false)) lat (repeat (K 0) n)) = n) by (rewrite length_map2n; rewrite ?repeat_length; lia).
  assert (L1 : length (map2 (nf2 Rminus) grav (map2 (nf2 (fun l h => wgs_grav l + free_air_second_order l h false)) lat (repeat (K 0) n))) = n) by (rewrite length_map2n; lia).
  assert (L2 : length (map2 (nf2 Rplus) (map2 (nf2 Rminus) grav (map2 (nf2 (fun l h => wgs_grav l + free_air_second_order l h false)) lat (repeat (K 0) n))) E) = n) by (rewrite length_map2n; lia).
  assert (L3 : length (map2 (nf2 Rplus) grav E) = n) by (rewrite length_map2n; lia).
  eexists. eexists. split; [reflexivity|].
  split; [rewrite length_map2n; lia|]. split; [rewrite length_map2n; lia|]. intros k Hk.
  pose proof (e_point_none lon lat n samp 6378137 6356752.3142 (centre n k - 1) Lo La ltac:(unfold centre; lia)) as HP.
  assert (C : (1 <= centre n k <= n - 2)%nat) by (unfold centre; lia).
  replace (centre n k - 1 + 1)%nat with (centre n k) in HP by lia. replace (centre n k - 1 + 2)%nat with (centre n k + 1)%nat in HP by lia.
  unfold blank. rewrite !M by lia.
  split.
  - rewrite !(nth_map2n (nf2 Rplus)) by lia. rewrite (nth_map2n (nf2 Rminus)) by lia. rewrite nth_map2n by (rewrite ?repeat_length; lia).
    rewrite !nf2_none, VG, VE, HP by lia.
    assert (R : nth k (repeat (K 0) n) None = None <-> False). { rewrite (nth_indep _ None (K 0)) by (rewrite repeat_length; exact Hk). rewrite nth_repeat. apply K_none. }
    rewrite R. tauto.
  - rewrite !(nth_map2n (nf2 Rplus)) by lia. rewrite !nf2_none, VG, VE, HP by lia. tauto.
Qed.

(** The filter. *)
Lemma nsum_fold_none l : forall o, fold_left (nf2 Rplus) l o = None <-> o = None \/ In None l.
Proof.
  induction l as [|a l IH]; intros o; cbn [fold_left In]; [tauto|]. rewrite IH, nf2_none. intuition.
Qed.
Lemma nsum_none l : nsum l = None <-> In None l.
Proof. unfold nsum. rewrite nsum_fold_none, K_none. tauto. Qed.
Lemma nsum_fits l v : fitl l v -> fits (nsum l) (pysum v).
Proof.
  intros F. unfold nsum, pysum. assert (G : forall o x, fits o x -> fits (fold_left (nf2 Rplus) l o) (fold_left Rplus v x)).
  { induction F; intros o z Hz; cbn [fold_left]; [exact Hz|]. apply IHF. apply fits_nf2; assumption. }
  apply G. reflexivity.
Qed.
Lemma pysum_filter (p : nat -> bool) (f g : nat -> R) l : (forall j, In j l -> p j = true -> f j = g j) -> (forall j, In j l -> p j = false -> g j = 0) -> pysum (map f (filter p l)) = pysum (map g l).
Proof.
  unfold pysum. intros H1 H2. enough (G : forall z, fold_left Rplus (map f (filter p l)) z = fold_left Rplus (map g l) z) by apply G.
  revert H1 H2. induction l as [|j l IH]; intros H1 H2 z; [reflexivity|]. cbn [filter].
  destruct (p j) eqn:E; cbn [map fold_left].
  - rewrite (H1 j (or_introl eq_refl) E). apply IH; intros; [apply H1|apply H2]; auto using in_cons.
  - rewrite (H2 j (or_introl eq_refl) E), Rplus_0_r. apply IH; intros; [apply H1|apply H2]; auto using in_cons.
Qed.
Lemma lfilter_fir_fits b x v : fitl x v -> fitl (lfilter_fir_nan b x) (lfilter_fir b v).
Proof.
  intros F. unfold lfilter_fir_nan, lfilter_fir. rewrite (fitl_length _ _ F). apply fitl_mapi. intros k _.
  rewrite <- (pysum_filter (fun j => (j <=? k)%nat) (fun j => nth j b 0 * nth (k - j) v 0)).
  - apply nsum_fits. apply fitl_mapi. intros j _. apply (fits_nf2 Rmult); [reflexivity|]. apply fitl_nth, F.
  - intros j _ E. rewrite E. reflexivity.
  - intros j _ E. rewrite E. ring.
Qed.
Lemma lfilter_start_fits b x v o z : fitl x v -> fits o z -> fitl (lfilter_start_nan b x o) (lfilter_start b v z).
Proof.
  intros F Ho. unfold lfilter_start_nan, lfilter_start. rewrite (fitl_length _ _ F). apply fitl_mapi. intros k _.
  pose proof (fitl_nth _ _ (lfilter_fir_fits b x v F) k) as N. destruct (k <? length b - 1)%nat eqn:E.
  - apply (fits_nf2 Rplus); [exact N|]. apply (fits_nf2 Rmult); [reflexivity|exact Ho].
  - apply Nat.ltb_ge in E. rewrite (nth_overflow (lfilter_zi b)) by (unfold lfilter_zi; rewrite map_length, seq_length; exact E). rewrite Rmult_0_l, Rplus_0_r. exact N.
Qed.
Lemma odd_ext_fits x v n : fitl x v -> fitl (odd_ext_nan x n) (odd_ext v n).
Proof.
  intros F. unfold odd_ext_nan, odd_ext. cbv zeta. rewrite (fitl_length _ _ F).
  apply fitl_app; [|apply fitl_app; [exact F|]]; (apply fitl_map; [|apply fitl_rev, fitl_slice, F]);
    intros o z Hz; (apply (fits_nf2 Rminus); [|exact Hz]; apply (fits_nf2 Rmult); [reflexivity|apply fitl_nth, F]).
Qed.
Lemma filtfilt_fits b x v : fitl x v ->
  match filtfilt_nan b x, filtfilt b v with Ok y, Ok y' => fitl y y' | Raise e, Raise e' => e = e' | _, _ => False end.
Proof.
  intros F. unfold filtfilt_nan, filtfilt. rewrite (fitl_length _ _ F). destruct (_ <=? _)%nat; [reflexivity|]. cbv zeta.
  set (edge := (3 * Nat.max 1 (length b))%nat). pose proof (odd_ext_fits x v edge F) as F1.
  pose proof (lfilter_start_fits b _ _ _ _ F1 (fitl_nth _ _ F1 0%nat)) as F2.
  set (y := lfilter_start_nan b (odd_ext_nan x edge) (nth 0 (odd_ext_nan x edge) None)) in *.
  set (y' := lfilter_start b (odd_ext v edge) (nth 0 (odd_ext v edge) 0)) in *.
  pose proof (fitl_nth _ _ F2 (length y' - 1)%nat) as N. rewrite (fitl_length _ _ F2).
  pose proof (fitl_rev _ _ (lfilter_start_fits b _ _ _ _ (fitl_rev _ _ F2) N)) as F3.
  rewrite (fitl_length _ _ F3). apply fitl_slice. exact F3.
Qed.
Lemma lfilter_start_length b x o : length (lfilter_start_nan b x o) = length x.
Proof. unfold lfilter_start_nan. rewrite map_length, seq_length. reflexivity. Qed.
Lemma nth_map_seq (f : nat -> NR) n k : (k < n)%nat -> nth k (map f (seq 0 n)) None = f k.
Proof. intros H. rewrite (nth_indep _ None (f 0%nat)) by (rewrite map_length, seq_length; exact H). rewrite map_nth, seq_nth by exact H. reflexivity. Qed.
Lemma lfilter_fir_none b x k : (k < length x)%nat -> nth k (lfilter_fir_nan b x) None = None <-> exists i, (i <= k < i + length b)%nat /\ nth i x None = None.
Proof.
  intros Hk. unfold lfilter_fir_nan. rewrite nth_map_seq by exact Hk. rewrite nsum_none, in_map_iff. split.
  - intros (j & E & I). apply filter_In in I. destruct I as [I L]. apply in_seq in I. apply Nat.leb_le in L. apply nf2_none in E. destruct E as [E|E]; [discriminate|].
    exists (k - j)%nat. split; [lia|exact E].
  - intros (i & R & E). exists (k - i)%nat. split.
    + replace (k - (k - i))%nat with i by lia. rewrite E. reflexivity.
    + apply filter_In. split; [apply in_seq; lia|apply Nat.leb_le; lia].
Qed.
Lemma lfilter_start_none b x k : (k < length x)%nat -> nth k (lfilter_start_nan b x (nth 0 x None)) None = None <-> exists i, (i <= k < i + length b)%nat /\ nth i x None = None.
Proof.
  intros Hk. unfold lfilter_start_nan. rewrite nth_map_seq by exact Hk. destruct (k <? length b - 1)%nat eqn:E; [|apply lfilter_fir_none, Hk].
  apply Nat.ltb_lt in E. rewrite !nf2_none, K_none, (lfilter_fir_none b x k Hk). split; [|tauto]. intros [H|[[]|H]]; [exact H|]. exists 0%nat. split; [lia|exact H].
Qed.
Lemma nth_rev_n (l : list NR) k : (k < length l)%nat -> nth k (rev l) None = nth (length l - 1 - k) l None.
Proof. intros H. rewrite rev_nth by exact H. f_equal. lia. Qed.
Lemma both_ways_none b x k : (k < length x)%nat ->
  let y := lfilter_start_nan b x (nth 0 x None) in
  nth k (rev (lfilter_start_nan b (rev y) (nth (length y - 1) y None))) None = None <->
  exists p, (p < length x)%nat /\ (k < p + length b)%nat /\ (p < k + length b)%nat /\ nth p x None = None.
Proof.
  intros Hk y. assert (Ly : length y = length x) by apply lfilter_start_length.
  rewrite nth_rev_n by (rewrite lfilter_start_length, rev_length; lia). rewrite lfilter_start_length, rev_length.
  replace (nth (length y - 1) y None) with (nth 0 (rev y) None) by (rewrite nth_rev_n by lia; f_equal; lia).
  rewrite lfilter_start_none by (rewrite rev_length; lia). split.
  - intros (i & R & E). rewrite nth_rev_n in E by lia. rewrite Ly in R, E. unfold y in E. rewrite lfilter_start_none in E by lia. destruct E as (p & Rp & E).
    exists p. repeat split; try lia. exact E.
  - intros (p & Lp & H1 & H2 & E). exists (length y - 1 - Nat.max k p)%nat. split; [lia|]. rewrite nth_rev_n by lia. rewrite Ly.
    unfold y. rewrite lfilter_start_none by lia. exists p. split; [lia|exact E].
Qed.
Lemma odd_ext_length x n : (n < length x)%nat -> length (odd_ext_nan x n) = (n + length x + n)%nat.
Proof. intros H. unfold odd_ext_nan, slice. cbv zeta. rewrite !app_length, !map_length, !rev_length, !firstn_length, !skipn_length. lia. Qed.
Lemma odd_ext_none x n p : (n < length x)%nat -> (p < n + length x + n)%nat -> nth p (odd_ext_nan x n) None = None <->
  if (p <? n)%nat then nth 0 x None = None \/ nth (n - p) x None = None
  else if (p <? n + length x)%nat then nth (p - n) x None = None
  else nth (length x - 1) x None = None \/ nth (2 * length x - 2 + n - p) x None = None.
Proof.
  intros H Hp. unfold odd_ext_nan. cbv zeta.
  assert (L1 : length (slice x 1 (n + 1)) = n) by (unfold slice; rewrite firstn_length, skipn_length; lia).
  assert (L2 : length (slice x (length x - 1 - n) (length x - 1)) = n) by (unfold slice; rewrite firstn_length, skipn_length; lia).
  assert (MN : forall c l k, (k < length l)%nat -> nth k (map (fun v => K 2 * c - v)%nan (rev l)) None = None <-> c = None \/ nth (length l - 1 - k) l None = None).
  { intros c l k Hk. rewrite (nth_indep _ None ((K 2 * c - None)%nan)) by (rewrite map_length, rev_length; exact Hk).
    rewrite (map_nth (fun v => K 2 * c - v)%nan). rewrite nth_rev_n by exact Hk. rewrite !nf2_none, K_none. tauto. }
  destruct (p <? n)%nat eqn:E1.
  - apply Nat.ltb_lt in E1. rewrite app_nth1 by (rewrite map_length, rev_length; lia). rewrite MN, L1 by lia.
    unfold slice. rewrite nth_firstn_lt, nth_skipn_add by lia. replace (1 + (n - 1 - p))%nat with (n - p)%nat by lia. reflexivity.
  - apply Nat.ltb_ge in E1. rewrite app_nth2 by (rewrite map_length, rev_length; lia). rewrite map_length, rev_length, L1.
    destruct (p <? n + length x)%nat eqn:E2.
    + apply Nat.ltb_lt in E2. rewrite app_nth1 by lia. reflexivity.
    + apply Nat.ltb_ge in E2. rewrite app_nth2 by lia. rewrite MN, L2 by lia.
      unfold slice. rewrite nth_firstn_lt, nth_skipn_add by lia. replace (length x - 1 - n + (n - 1 - (p - n - length x)))%nat with (2 * length x - 2 + n - p)%nat by lia. reflexivity.
Qed.
Lemma filtfilt_nan_ok b x : (0 < length b)%nat -> (3 * length b < length x)%nat -> exists y, filtfilt_nan b x = Ok y /\ length y = length x /\
  forall m, (m < length x)%nat -> (nth m y None = None <-> exists i, (i < length x)%nat /\ near (length b - 1) i m /\ nth i x None = None).
Proof.
  intros Hb Hx. unfold filtfilt_nan. replace (Nat.max 1 (length b)) with (length b) by lia.
  replace (_ <=? _)%nat with false by (symmetry; apply Nat.leb_gt; lia). cbv zeta.
  set (n := (3 * length b)%nat) in *. pose proof (odd_ext_length x n Hx) as Le.
  eexists. split; [reflexivity|].
  rewrite !rev_length, !lfilter_start_length, !rev_length, !lfilter_start_length.
  assert (L0 : length (rev (lfilter_start_nan b (rev (lfilter_start_nan b (odd_ext_nan x n) (nth 0 (odd_ext_nan x n) None)))
    (nth (length (odd_ext_nan x n) - 1) (lfilter_start_nan b (odd_ext_nan x n) (nth 0 (odd_ext_nan x n) None)) None))) = (n + length x + n)%nat)
    by (rewrite rev_length, lfilter_start_length, rev_length, lfilter_start_length; exact Le).
  split; [unfold slice; rewrite firstn_length, skipn_length, L0, Le; lia|].
  intros m Hm. unfold slice. rewrite nth_firstn_lt, nth_skipn_add by lia.
  pose proof (both_ways_none b (odd_ext_nan x n) (n + m) ltac:(lia)) as HB. cbv zeta in HB. rewrite lfilter_start_length in HB. rewrite HB. clear HB L0.
  unfold near. split.
  - intros (p & Lp & H1 & H2 & E). rewrite odd_ext_none in E by lia. destruct (p <? n)%nat eqn:E1; [|destruct (p <? n + length x)%nat eqn:E2].
    + apply Nat.ltb_lt in E1. destruct E as [E|E]; [exists 0%nat|exists (n - p)%nat]; repeat split; try exact E; lia.
    + apply Nat.ltb_ge in E1. apply Nat.ltb_lt in E2. exists (p - n)%nat. repeat split; try exact E; lia.
    + apply Nat.ltb_ge in E2. destruct E as [E|E]; [exists (length x - 1)%nat|exists (2 * length x - 2 + n - p)%nat]; repeat split; try exact E; lia.
  - intros (i & Hi & [N1 N2] & E). exists (n + i)%nat. repeat split; try lia. rewrite odd_ext_none by lia.
    replace (n + i <? n)%nat with false by (symmetry; apply Nat.ltb_ge; lia). replace (n + i <? n + length x)%nat with true by (symmetry; apply Nat.ltb_lt; lia).
    replace (n + i - n)%nat with i by lia. exact E.
Qed.
