(** Lemmas on the shared vocabulary. *)
From Coq Require Import List ZArith Reals Lia Lra Bool.
From Verif Require Import M_Py S_Base.
Import ListNotations.
Open Scope R_scope.

(** ** Sums *)
Lemma Rsum_ext n f g : (forall i, (i < n)%nat -> f i = g i) -> Rsum n f = Rsum n g.
Proof.
  induction n as [|n IH]; intros H; simpl; [reflexivity|].
  rewrite IH by (intros; apply H; lia). rewrite H by lia. reflexivity.
Qed.

Lemma Rsum_plus n f g : Rsum n (fun i => f i + g i) = Rsum n f + Rsum n g.
Proof. induction n as [|n IH]; simpl; [lra|]. rewrite IH. lra. Qed.

Lemma Rsum_minus n f g : Rsum n (fun i => f i - g i) = Rsum n f - Rsum n g.
Proof. induction n as [|n IH]; simpl; [lra|]. rewrite IH. lra. Qed.

Lemma Rsum_scal n c f : Rsum n (fun i => c * f i) = c * Rsum n f.
Proof. induction n as [|n IH]; simpl; [lra|]. rewrite IH. lra. Qed.

Lemma Rsum_scal_r n c f : Rsum n (fun i => f i * c) = Rsum n f * c.
Proof. induction n as [|n IH]; simpl; [lra|]. rewrite IH. lra. Qed.

Lemma Rsum_div n c f : Rsum n (fun i => f i / c) = Rsum n f / c.
Proof. unfold Rdiv. apply Rsum_scal_r. Qed.

Lemma Rsum_0 n : Rsum n (fun _ => 0) = 0.
Proof. induction n as [|n IH]; simpl; [lra|]. rewrite IH. lra. Qed.

Lemma Rsum_eq0 n f : (forall i, (i < n)%nat -> f i = 0) -> Rsum n f = 0.
Proof. intros H. rewrite (Rsum_ext n f (fun _ => 0)) by assumption. apply Rsum_0. Qed.

Lemma Rsum_const n c : Rsum n (fun _ => c) = INR n * c.
Proof.
  induction n as [|n IH]; [simpl; lra|].
  cbn [Rsum]. rewrite IH, S_INR. lra.
Qed.

Lemma Rsum_split n m f : Rsum (n + m) f = Rsum n f + Rsum m (fun i => f (n + i)%nat).
Proof.
  induction m as [|m IH]; simpl; [rewrite Nat.add_0_r; lra|].
  rewrite Nat.add_succ_r. simpl. rewrite IH. lra.
Qed.

Lemma Rsum_S_first n f : Rsum (S n) f = f O + Rsum n (fun i => f (S i)).
Proof.
  change (S n) with (1 + n)%nat. rewrite Rsum_split. simpl. lra.
Qed.

Lemma Rsum_rev n f : Rsum n f = Rsum n (fun i => f (n - 1 - i)%nat).
Proof.
  revert f. induction n as [|n IH]; intros f; [reflexivity|].
  rewrite Rsum_S_first. rewrite IH. cbn [Rsum].
  replace (S n - 1 - n)%nat with O by lia.
  rewrite Rplus_comm. f_equal.
  apply Rsum_ext. intros i Hi. f_equal. lia.
Qed.

Lemma Rsum_swap n m (f : nat -> nat -> R) :
  Rsum n (fun i => Rsum m (fun j => f i j)) = Rsum m (fun j => Rsum n (fun i => f i j)).
Proof.
  induction n as [|n IH]; simpl.
  - symmetry. apply Rsum_0.
  - rewrite IH. rewrite <- Rsum_plus. reflexivity.
Qed.

Lemma Rsum_le n f g : (forall i, (i < n)%nat -> f i <= g i) -> Rsum n f <= Rsum n g.
Proof.
  induction n as [|n IH]; intros H; simpl; [lra|].
  assert (Rsum n f <= Rsum n g) by (apply IH; intros; apply H; lia).
  assert (f n <= g n) by (apply H; lia). lra.
Qed.

Lemma Rsum_nonneg n f : (forall i, (i < n)%nat -> 0 <= f i) -> 0 <= Rsum n f.
Proof.
  intros H. rewrite <- (Rsum_0 n). apply Rsum_le. exact H.
Qed.

Lemma Rsum_pos n f : (0 < n)%nat -> (forall i, (i < n)%nat -> 0 < f i) -> 0 < Rsum n f.
Proof.
  intros Hn H. destruct n as [|n]; [lia|]. simpl.
  assert (0 <= Rsum n f) by (apply Rsum_nonneg; intros; left; apply H; lia).
  assert (0 < f n) by (apply H; lia). lra.
Qed.

Lemma Rsum_abs n f : Rabs (Rsum n f) <= Rsum n (fun i => Rabs (f i)).
Proof.
  induction n as [|n IH]; simpl; [rewrite Rabs_R0; lra|].
  eapply Rle_trans; [apply Rabs_triang|]. lra.
Qed.

(** only one non-zero term *)
Lemma Rsum_single n k f :
  (k < n)%nat -> (forall i, (i < n)%nat -> i <> k -> f i = 0) -> Rsum n f = f k.
Proof.
  intros Hk H. replace n with (k + (1 + (n - k - 1)))%nat by lia.
  rewrite Rsum_split, Rsum_split. cbn [Rsum].
  rewrite (Rsum_eq0 k) by (intros; apply H; lia).
  rewrite (Rsum_eq0 (n - k - 1)) by (intros; apply H; lia).
  rewrite Nat.add_0_r. lra.
Qed.

Lemma fold_left_Rplus l a : fold_left Rplus l a = a + fold_left Rplus l 0.
Proof.
  revert a. induction l as [|x l IH]; intros a; simpl; [lra|].
  rewrite IH. rewrite (IH (0 + x)). lra.
Qed.

Lemma pysum_nil : pysum [] = 0.
Proof. reflexivity. Qed.

Lemma pysum_cons a l : pysum (a :: l) = a + pysum l.
Proof. unfold pysum. simpl. rewrite fold_left_Rplus. lra. Qed.

Lemma pysum_app l1 l2 : pysum (l1 ++ l2) = pysum l1 + pysum l2.
Proof.
  induction l1 as [|a l1 IH]; simpl.
  - rewrite pysum_nil. lra.
  - rewrite !pysum_cons, IH. lra.
Qed.

Lemma pysum_Rsum l : pysum l = Rsum (length l) (fun i => nth i l 0).
Proof.
  induction l as [|a l IH]; [reflexivity|].
  rewrite pysum_cons, IH. cbn [length]. rewrite Rsum_S_first. reflexivity.
Qed.

Lemma pysum_rev l : pysum (rev l) = pysum l.
Proof.
  induction l as [|a l IH]; [reflexivity|].
  simpl. rewrite pysum_app, IH, !pysum_cons, pysum_nil. lra.
Qed.

(** ** Lists *)
Lemma upd_length A (l : list A) n v : length (upd l n v) = length l.
Proof. revert n; induction l; intros [|n]; simpl; auto. Qed.

Lemma nth_upd A (l : list A) n v d i :
  nth i (upd l n v) d = if Nat.eqb i n && Nat.ltb n (length l) then v else nth i l d.
Proof.
  revert n i. induction l as [|a l IH]; intros n i; simpl.
  - rewrite andb_false_r. reflexivity.
  - destruct n as [|n]; destruct i as [|i]; simpl; try reflexivity.
    rewrite IH. reflexivity.
Qed.

Lemma map2_length A B C (f : A -> B -> C) l1 l2 :
  length (map2 f l1 l2) = Nat.min (length l1) (length l2).
Proof. revert l2; induction l1; intros [|b l2]; simpl; auto. Qed.

Lemma map2_nth A B C (f : A -> B -> C) l1 l2 i d1 d2 d :
  (i < length l1)%nat -> (i < length l2)%nat ->
  nth i (map2 f l1 l2) d = f (nth i l1 d1) (nth i l2 d2).
Proof.
  revert l2 i. induction l1 as [|a l1 IH]; intros [|b l2] i H1 H2; simpl in *; try lia.
  destruct i; [reflexivity|]. apply IH; lia.
Qed.

Lemma map3_length A B C D (f : A -> B -> C -> D) l1 l2 l3 :
  length (map3 f l1 l2 l3) = Nat.min (length l1) (Nat.min (length l2) (length l3)).
Proof. revert l2 l3; induction l1; intros [|b l2] [|c l3]; simpl; auto. Qed.

Lemma map3_nth A B C D (f : A -> B -> C -> D) l1 l2 l3 i d1 d2 d3 d :
  (i < length l1)%nat -> (i < length l2)%nat -> (i < length l3)%nat ->
  nth i (map3 f l1 l2 l3) d = f (nth i l1 d1) (nth i l2 d2) (nth i l3 d3).
Proof.
  revert l2 l3 i.
  induction l1 as [|a l1 IH]; intros [|b l2] [|c l3] i H1 H2 H3; simpl in *; try lia.
  destruct i; [reflexivity|]. apply IH; lia.
Qed.

Lemma nth_map A B (f : A -> B) l i d d' :
  (i < length l)%nat -> nth i (map f l) d = f (nth i l d').
Proof.
  revert i. induction l as [|a l IH]; intros i H; simpl in *; [lia|].
  destruct i; [reflexivity|]. apply IH; lia.
Qed.

Lemma nth_firstn A (l : list A) n i d :
  (i < n)%nat -> nth i (firstn n l) d = nth i l d.
Proof.
  revert n i. induction l as [|a l IH]; intros n i H; destruct n; simpl; try lia; auto.
  destruct i; [reflexivity|]. apply IH; lia.
Qed.

Lemma nth_skipn A (l : list A) n i d : nth i (skipn n l) d = nth (n + i) l d.
Proof.
  revert n. induction l as [|a l IH]; intros n; destruct n; simpl; auto.
  destruct i; reflexivity.
Qed.

Lemma slice_length A (l : list A) a b :
  length (slice l a b) = Nat.min (b - a) (length l - a).
Proof. unfold slice. rewrite firstn_length, skipn_length. reflexivity. Qed.

Lemma nth_slice A (l : list A) a b i d :
  (i < b - a)%nat -> nth i (slice l a b) d = nth (a + i) l d.
Proof. intros H. unfold slice. rewrite nth_firstn, nth_skipn; auto. Qed.

Lemma nth_repeat_lt A (a d : A) n i : (i < n)%nat -> nth i (repeat a n) d = a.
Proof. revert i; induction n; intros i H; [lia|]. destruct i; simpl; auto. apply IHn; lia. Qed.

Lemma list_eq_nth A (l1 l2 : list A) d :
  length l1 = length l2 ->
  (forall i, (i < length l1)%nat -> nth i l1 d = nth i l2 d) -> l1 = l2.
Proof. intros. eapply nth_ext; eauto. Qed.

Lemma range_down_length n : length (range_down n) = n.
Proof. induction n; simpl; auto. Qed.

Lemma nth_range_down n i d : (i < n)%nat -> nth i (range_down n) d = Z.of_nat (n - i).
Proof.
  revert i. induction n as [|n IH]; intros i H; [lia|].
  destruct i as [|i]; [reflexivity|].
  cbn [range_down nth]. rewrite IH by lia. f_equal.
Qed.

Lemma nth_tl A (l : list A) i d : nth i (tl l) d = nth (S i) l d.
Proof. destruct l; destruct i; reflexivity. Qed.

Lemma length_tl A (l : list A) : length (tl l) = (length l - 1)%nat.
Proof. destruct l; simpl; lia. Qed.

Lemma nth_map_seq A (f : nat -> A) n i d :
  (i < n)%nat -> nth i (map f (seq 0 n)) d = f i.
Proof.
  intros H. rewrite nth_map with (d' := O) by (rewrite seq_length; lia).
  rewrite seq_nth by lia. reflexivity.
Qed.

Lemma mapM_ok A B (f : A -> res B) l bs :
  mapM f l = Ok bs -> length bs = length l /\
  forall i da db, (i < length l)%nat -> f (nth i l da) = Ok (nth i bs db).
Proof.
  revert bs. induction l as [|a l IH]; intros bs H; simpl in H.
  - injection H as <-. split; [reflexivity|]. simpl; intros; lia.
  - destruct (f a) as [b|e] eqn:Ha; simpl in H; [|discriminate].
    destruct (mapM f l) as [bs'|e] eqn:Hl; simpl in H; [|discriminate].
    injection H as <-. destruct (IH _ eq_refl) as [H1 H2]. split; [simpl; lia|].
    intros [|i] da db Hi; simpl; [exact Ha|]. apply H2. simpl in Hi. lia.
Qed.

Lemma mapM_Ok_map A B (f : A -> res B) (g : A -> B) l :
  (forall a, In a l -> f a = Ok (g a)) -> mapM f l = Ok (map g l).
Proof.
  induction l as [|a l IH]; intros H; [reflexivity|]. simpl.
  rewrite (H a) by (left; reflexivity). simpl.
  rewrite IH by (intros; apply H; right; assumption). reflexivity.
Qed.

Lemma mapM_raise A B (f : A -> res B) l1 a e l2 bs :
  mapM f l1 = Ok bs -> f a = Raise e -> mapM f (l1 ++ a :: l2) = Raise e.
Proof.
  revert bs. induction l1 as [|x l1 IH]; intros bs H Ha; simpl in *.
  - rewrite Ha. reflexivity.
  - destruct (f x); simpl in *; [|discriminate].
    destruct (mapM f l1); simpl in *; [|discriminate].
    erewrite IH by (try reflexivity; assumption). reflexivity.
Qed.

Lemma mapM_app A B (f : A -> res B) l1 l2 :
  mapM f (l1 ++ l2) = (do b1 <- mapM f l1; do b2 <- mapM f l2; Ok (b1 ++ b2)).
Proof.
  induction l1 as [|a l1 IH]; simpl.
  - destruct (mapM f l2); reflexivity.
  - destruct (f a); simpl; [|reflexivity]. rewrite IH.
    destruct (mapM f l1); simpl; [|reflexivity].
    destruct (mapM f l2); reflexivity.
Qed.
