(** Proofs for the corrections. *)
From Coq Require Import List ZArith Reals Lia Lra.
From Verif Require Import M_Py M_Np M_Corr S_Base S_Nav S_Corr L_Base L_Np L_Nav.
Import ListNotations.
Open Scope R_scope.

(** ** functions with two derivatives *)
Definition D2 (f f' f'' : R -> R) : Prop :=
  forall t, derivable_pt_lim f t (f' t) /\ derivable_pt_lim f' t (f'' t).

Lemma dl_ext (f g : R -> R) t l : (forall x, f x = g x) -> derivable_pt_lim f t l -> derivable_pt_lim g t l.
Proof. intros H Hf e He. destruct (Hf e He) as [d Hd]. exists d. intros h. rewrite <- !H. apply Hd. Qed.

Lemma dl_val (f : R -> R) t l l' : l = l' -> derivable_pt_lim f t l -> derivable_pt_lim f t l'.
Proof. intros ->. auto. Qed.

Lemma D2_const c : D2 (fun _ => c) (fun _ => 0) (fun _ => 0).
Proof. intros t. split; apply derivable_pt_lim_const. Qed.

Lemma D2_plus f f' f'' g g' g'' : D2 f f' f'' -> D2 g g' g'' ->
  D2 (fun t => f t + g t) (fun t => f' t + g' t) (fun t => f'' t + g'' t).
Proof.
  intros Hf Hg t. destruct (Hf t), (Hg t). split; [apply (derivable_pt_lim_plus f g)|apply (derivable_pt_lim_plus f' g')]; assumption.
Qed.
Lemma D2_minus f f' f'' g g' g'' : D2 f f' f'' -> D2 g g' g'' ->
  D2 (fun t => f t - g t) (fun t => f' t - g' t) (fun t => f'' t - g'' t).
Proof.
  intros Hf Hg t. destruct (Hf t), (Hg t). split; [apply (derivable_pt_lim_minus f g)|apply (derivable_pt_lim_minus f' g')]; assumption.
Qed.
Lemma D2_mult f f' f'' g g' g'' : D2 f f' f'' -> D2 g g' g'' ->
  D2 (fun t => f t * g t) (fun t => f' t * g t + f t * g' t) (fun t => f'' t * g t + 2 * f' t * g' t + f t * g'' t).
Proof.
  intros Hf Hg t. destruct (Hf t), (Hg t). split; [apply (derivable_pt_lim_mult f g); assumption|].
  eapply dl_val; [|apply (derivable_pt_lim_plus (fun t => f' t * g t) (fun t => f t * g' t));
    [apply (derivable_pt_lim_mult f' g)|apply (derivable_pt_lim_mult f g')]; eassumption].
  ring.
Qed.
Lemma D2_cos f f' f'' : D2 f f' f'' ->
  D2 (fun t => cos (f t)) (fun t => - sin (f t) * f' t) (fun t => - cos (f t) * f' t ^ 2 - sin (f t) * f'' t).
Proof.
  intros Hf t. destruct (Hf t). split.
  - apply (derivable_pt_lim_comp f cos); [assumption|apply derivable_pt_lim_cos].
  - eapply dl_val; [|apply (derivable_pt_lim_mult (fun t => - sin (f t)) f')]; [| |eassumption].
    2:{ apply (derivable_pt_lim_opp (fun t => sin (f t))). apply (derivable_pt_lim_comp f sin); [eassumption|apply derivable_pt_lim_sin]. }
    ring.
Qed.
Lemma D2_sin f f' f'' : D2 f f' f'' ->
  D2 (fun t => sin (f t)) (fun t => cos (f t) * f' t) (fun t => - sin (f t) * f' t ^ 2 + cos (f t) * f'' t).
Proof.
  intros Hf t. destruct (Hf t). split.
  - apply (derivable_pt_lim_comp f sin); [assumption|apply derivable_pt_lim_sin].
  - eapply dl_val; [|apply (derivable_pt_lim_mult (fun t => cos (f t)) f')]; [| |eassumption].
    2:{ apply (derivable_pt_lim_comp f cos); [eassumption|apply derivable_pt_lim_cos]. }
    ring.
Qed.

Lemma D2_acceleration f f' f'' t : D2 f f' f'' -> acceleration f t (f'' t).
Proof. intros H. exists f'. split; [intros u; apply H|apply H]. Qed.

Lemma acceleration_unique f t a b : acceleration f t a -> acceleration f t b -> a = b.
Proof.
  intros [v [Hv Ha]] [w [Hw Hb]].
  assert (E : forall x, w x = v x) by (intros x; apply (uniqueness_limite f x); auto).
  apply (uniqueness_limite v t); [exact Ha|]. apply (dl_ext w v); assumption.
Qed.

(** ** the motion effect in terms of the derivatives *)
Section Kinematics.
Variables (a f : R) (lat lat' lat'' lon lon' lon'' ht ht' ht'' dev dev' dev'' : R -> R).
Hypothesis Hlat : D2 lat lat' lat''.
Hypothesis Hlon : D2 lon lon' lon''.
Hypothesis Hht : D2 ht ht' ht''.
Hypothesis Hdev : D2 dev dev' dev''.

Definition k_r (t : R) : R := a * (1 - f * sin (lat t) ^ 2).
Definition k_r' (t : R) : R := - a * lat' t * f * sin (2 * lat t).
Definition k_r'' (t : R) : R := - a * lat'' t * f * sin (2 * lat t) - 2 * a * lat' t * lat' t * f * cos (2 * lat t).

Lemma D2_eq g g' g'' h h' h'' : (forall t, g t = h t) -> (forall t, g' t = h' t) -> (forall t, g'' t = h'' t) ->
  D2 g g' g'' -> D2 h h' h''.
Proof.
  intros E0 E1 E2 H t. destruct (H t) as [A B]. rewrite <- E1, <- E2.
  split; [apply (dl_ext g h); assumption|apply (dl_ext g' h'); assumption].
Qed.

Lemma D2_r : D2 k_r k_r' k_r''.
Proof.
  eapply D2_eq; [| | |exact (D2_mult _ _ _ _ _ _ (D2_const a) (D2_minus _ _ _ _ _ _ (D2_const 1)
     (D2_mult _ _ _ _ _ _ (D2_const f) (D2_mult _ _ _ _ _ _ (D2_sin _ _ _ Hlat) (D2_sin _ _ _ Hlat)))))];
   intros t; unfold k_r, k_r', k_r''; cbv beta; rewrite ?sin_2a, ?cos_2a; ring.
Qed.

(** vertical and southward parts *)
Definition k_v' (t : R) : R := k_r' t * cos (dev t) - k_r t * dev' t * sin (dev t) + ht' t.
Definition k_v'' (t : R) : R :=
  k_r'' t * cos (dev t) - 2 * k_r' t * dev' t * sin (dev t)
  - k_r t * (dev'' t * sin (dev t) + dev' t * dev' t * cos (dev t)) + ht'' t.
Definition k_s' (t : R) : R := k_r' t * sin (dev t) + k_r t * dev' t * cos (dev t).
Definition k_s'' (t : R) : R :=
  k_r'' t * sin (dev t) + 2 * k_r' t * dev' t * cos (dev t)
  + k_r t * (dev'' t * cos (dev t) - dev' t * dev' t * sin (dev t)).

Lemma D2_v : D2 (vertical a f lat ht dev) k_v' k_v''.
Proof.
  eapply D2_eq; [| | |exact (D2_plus _ _ _ _ _ _ (D2_mult _ _ _ _ _ _ D2_r (D2_cos _ _ _ Hdev)) Hht)];
   intros t; unfold vertical, radius, k_v', k_v'', k_r; cbv beta; ring.
Qed.
Lemma D2_s : D2 (southward a f lat dev) k_s' k_s''.
Proof.
  eapply D2_eq; [| | |exact (D2_mult _ _ _ _ _ _ D2_r (D2_sin _ _ _ Hdev))];
   intros t; unfold southward, radius, k_s', k_s'', k_r; cbv beta; ring.
Qed.

Lemma D2_sidereal : D2 (sidereal lon) (fun t => lon' t + earth_rate) lon''.
Proof.
  intros t. destruct (Hlon t) as [A B]. split.
  - apply (derivable_pt_lim_plus lon (fun t => earth_rate * t)); [exact A|].
    eapply dl_val; [|apply (derivable_pt_lim_scal id earth_rate t 1); apply derivable_pt_lim_id]. ring.
  - eapply dl_val; [|apply (derivable_pt_lim_plus lon' (fun _ => earth_rate)); [exact B|apply derivable_pt_lim_const]]. ring.
Qed.

Lemma motion_formula t :
  motion_effect a f lat lon ht dev t
   (- k_v'' t + vertical a f lat ht dev t * lat' t ^ 2 - 2 * k_s' t * lat' t - southward a f lat dev t * lat'' t
    + cos (lat t) * axis_distance a f lat ht dev t * ((lon' t + earth_rate) ^ 2 - earth_rate ^ 2)).
Proof.
  pose proof (D2_mult _ _ _ _ _ _ (D2_plus _ _ _ _ _ _ (D2_mult _ _ _ _ _ _ D2_v (D2_cos _ _ _ Hlat)) (D2_mult _ _ _ _ _ _ D2_s (D2_sin _ _ _ Hlat)))
     (D2_cos _ _ _ D2_sidereal)) as Hx.
  pose proof (D2_mult _ _ _ _ _ _ (D2_plus _ _ _ _ _ _ (D2_mult _ _ _ _ _ _ D2_v (D2_cos _ _ _ Hlat)) (D2_mult _ _ _ _ _ _ D2_s (D2_sin _ _ _ Hlat)))
     (D2_sin _ _ _ D2_sidereal)) as Hy.
  pose proof (D2_minus _ _ _ _ _ _ (D2_mult _ _ _ _ _ _ D2_v (D2_sin _ _ _ Hlat)) (D2_mult _ _ _ _ _ _ D2_s (D2_cos _ _ _ Hlat))) as Hz.
  apply (D2_acceleration _ _ _ t) in Hx. apply (D2_acceleration _ _ _ t) in Hy. apply (D2_acceleration _ _ _ t) in Hz.
  eexists _, _, _. split; [exact Hx|]. split; [exact Hy|]. split; [exact Hz|].
  unfold downward, pos_x, pos_y, axis_distance.
  set (V := vertical a f lat ht dev t). set (V2 := k_v'' t). set (V1 := k_v' t).
  set (S := southward a f lat dev t). set (S2 := k_s'' t). set (S1 := k_s' t).
  pose proof (sin2_cos2 (lat t)) as H1. pose proof (sin2_cos2 (sidereal lon t)) as H2. unfold Rsqr in *.
  set (c := cos (lat t)) in *. set (s := sin (lat t)) in *. set (C := cos (sidereal lon t)) in *. set (Z := sin (sidereal lon t)) in *.
  set (p := lat' t). set (p2 := lat'' t). set (q := lon' t). set (q2 := lon'' t). set (w := earth_rate).
  clearbody V V1 V2 S S1 S2 c s C Z p p2 q q2 w.
  assert (HC : C * C = 1 - Z * Z) by lra. assert (Hc : c * c = 1 - s * s) by lra.
  match goal with |- ?L = ?Rr => assert (HE : Rr = - (c * (V2*c + 2*V1*(-s*p) + V*(-c*p^2 - s*p2) + (S2*s + 2*S1*(c*p) + S*(-s*p^2 + c*p2)) - (V*c + S*s)*((q+w)^2 - w^2)) * (Z*Z + C*C)
      + s * (V2*s + 2*V1*(c*p) + V*(-s*p^2 + c*p2) - (S2*c + 2*S1*(-s*p) + S*(-c*p^2 - s*p2))))) by ring end.
  rewrite HE. rewrite H2.
  transitivity (- (V2 * (s*s+c*c) - V*p^2*(s*s+c*c) + 2*S1*p*(s*s+c*c) + S*p2*(s*s+c*c)) + c * (V*c+S*s) * ((q+w)^2 - w^2)).
  - rewrite H1. ring.
  - ring.
Qed.
End Kinematics.

(** ** the code's formula is the motion effect *)
Lemma eotvos_point_formula a b latr dlat ddlat dlon ddlon ht dht ddht : a <> 0 ->
  let f := (a - b) / a in
  let D := atan (f * sin (2 * latr)) in
  let dD := 2 * dlat * f * cos (2 * latr) in
  let ddD := 2 * ddlat * f * cos (2 * latr) - 4 * dlat * dlat * f * sin (2 * latr) in
  let K := fun x (_ : R) => x in
  let r := k_r a f (K latr) 0 in let r1 := k_r' a f (K latr) (K dlat) 0 in
  let r2 := k_r'' a f (K latr) (K dlat) (K ddlat) 0 in
  eotvos_point a b latr dlat ddlat dlon ddlon ht dht ddht = 100000 *
   (- (r2 * cos D - 2 * r1 * dD * sin D - r * (ddD * sin D + dD * dD * cos D) + ddht)
    + (r * cos D + ht) * dlat ^ 2 - 2 * (r1 * sin D + r * dD * cos D) * dlat - r * sin D * ddlat
    + cos latr * ((r * cos D + ht) * cos latr + r * sin D * sin latr) * ((dlon + earth_rate) ^ 2 - earth_rate ^ 2)).
Proof.
  intros Ha f D dD ddD K r r1 r2. unfold eotvos_point. cbv zeta. fold f. fold D.
  unfold r, r1, r2, k_r, k_r', k_r'', K, dD, ddD. cbn [cross vadd vscale vz snd].
  replace We with earth_rate by (unfold We, earth_rate; lra). unfold mps2mgal.
  set (s2 := sin (2 * latr)). set (c2 := cos (2 * latr)). set (sD := sin D). set (cD := cos D).
  clearbody f sD cD s2 c2. ring.
Qed.

(** ** differences *)
Lemma cd1_length y s : length (center_diff1 y s) = (length y - 2)%nat.
Proof. unfold center_diff1. rewrite map2_length, skipn_length, firstn_length. lia. Qed.
Lemma cd2_length y s : length (center_diff2 y s) = (length y - 2)%nat.
Proof. unfold center_diff2. rewrite map3_length, skipn_length, firstn_length, slice_length. lia. Qed.

Lemma nth_cd1 y s k d : (k < length y - 2)%nat ->
  nth k (center_diff1 y s) d = (nth (k + 2) y 0 - nth k y 0) * (s / 2).
Proof.
  intros H. unfold center_diff1. rewrite (map2_nth _ _ _ _ _ _ _ 0 0) by (rewrite ?skipn_length, ?firstn_length; lia).
  rewrite nth_skipn, nth_firstn by lia. replace (2 + k)%nat with (k + 2)%nat by lia. reflexivity.
Qed.
Lemma nth_cd2 y s k d : (k < length y - 2)%nat ->
  nth k (center_diff2 y s) d = (nth k y 0 - 2 * nth (k + 1) y 0 + nth (k + 2) y 0) * s ^ 2.
Proof.
  intros H. unfold center_diff2. rewrite (map3_nth _ _ _ _ _ _ _ _ _ 0 0 0) by (rewrite ?skipn_length, ?firstn_length, ?slice_length; lia).
  rewrite nth_skipn, nth_firstn, nth_slice by lia.
  replace (2 + k)%nat with (k + 2)%nat by lia. replace (1 + k)%nat with (k + 1)%nat by lia. reflexivity.
Qed.

Lemma last_map_seq (A : Type) (f : nat -> A) n d : (0 < n)%nat -> last (map f (seq 0 n)) d = f (n - 1)%nat.
Proof.
  intros H. destruct n as [|n]; [lia|]. rewrite seq_S, map_app. cbn [map]. rewrite last_last. f_equal. lia.
Qed.

Definition eotvos_at (lon lat ht : list R) (samp a b : R) (k : nat) : R :=
  let latr := map deg2rad lat in let lonr := map deg2rad lon in
  eotvos_point a b (nth k latr 0)
    ((nth (k + 1) latr 0 - nth (k - 1) latr 0) * (samp / 2))
    ((nth (k - 1) latr 0 - 2 * nth k latr 0 + nth (k + 1) latr 0) * samp ^ 2)
    ((nth (k + 1) lonr 0 - nth (k - 1) lonr 0) * (samp / 2))
    ((nth (k - 1) lonr 0 - 2 * nth k lonr 0 + nth (k + 1) lonr 0) * samp ^ 2)
    (nth k ht 0)
    ((nth (k + 1) ht 0 - nth (k - 1) ht 0) * (samp / 2))
    ((nth (k - 1) ht 0 - 2 * nth k ht 0 + nth (k + 1) ht 0) * samp ^ 2).

Definition clamp (k n : nat) : nat := Nat.min (Nat.max k 1) (n - 2).

Lemma eotvos_full_eq lon lat ht samp a b : length lon = length lat -> length ht = length lat -> (3 <= length lat)%nat ->
  eotvos_full lon lat ht samp a b = Ok (map (fun k => eotvos_at lon lat ht samp a b (clamp k (length lat))) (seq 0 (length lat))).
Proof.
  intros H1 H2 Hn. unfold eotvos_full. rewrite H1, H2, Nat.eqb_refl. cbn [andb negb].
  set (E := map _ _).
  assert (HE : E = map (fun k => eotvos_at lon lat ht samp a b (k + 1)) (seq 0 (length lat - 2))).
  { unfold E. rewrite map_length. apply map_ext_in. intros k Hk. apply in_seq in Hk. unfold eotvos_at.
    rewrite !nth_cd1, !nth_cd2, !nth_slice by (rewrite ?map_length; lia).
    replace (k + 1 + 1)%nat with (k + 2)%nat by lia. replace (k + 1 - 1)%nat with k by lia.
    replace (1 + k)%nat with (k + 1)%nat by lia. reflexivity. }
  assert (LE : length E = (length lat - 2)%nat) by (rewrite HE, map_length, seq_length; reflexivity).
  assert (HL : last E 0 = eotvos_at lon lat ht samp a b (length lat - 2)).
  { rewrite HE, last_map_seq by lia. f_equal. lia. }
  assert (HN : forall k, (k < length lat - 2)%nat -> nth k E 0 = eotvos_at lon lat ht samp a b (k + 1)).
  { intros k Hk. rewrite HE, nth_map_seq by exact Hk. reflexivity. }
  clearbody E. clear HE. destruct E as [|e0 E]; [cbn in LE; lia|]. f_equal.
  assert (H0 : e0 = eotvos_at lon lat ht samp a b 1) by (apply (HN 0%nat); lia).
  apply (list_eq_nth _ _ _ 0).
  - rewrite map_length, seq_length. cbn [length] in *. rewrite app_length. cbn [length]. lia.
  - intros k Hk. cbn [length] in Hk. rewrite app_length in Hk. cbn [length] in Hk, LE.
    rewrite nth_map_seq by lia. destruct k as [|k]; cbn [nth].
    + rewrite H0. f_equal. unfold clamp. lia.
    + destruct (Nat.lt_ge_cases k (length lat - 2)) as [Hk2|Hk2].
      * rewrite app_nth1 by (cbn [length]; lia). rewrite HN by exact Hk2. f_equal. unfold clamp. lia.
      * rewrite app_nth2 by (cbn [length]; lia). replace (k - length (e0 :: E))%nat with 0%nat by (cbn [length]; lia).
        cbn [nth]. rewrite HL. f_equal. unfold clamp. lia.
Qed.

Lemma map_repeat (A B : Type) (f : A -> B) a n : map f (repeat a n) = repeat (f a) n.
Proof. induction n as [|n IH]; cbn; [reflexivity|rewrite IH; reflexivity]. Qed.
