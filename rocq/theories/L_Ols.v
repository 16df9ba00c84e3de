(** Lemmas for property C106: least squares. *)
From Coq Require Import List Reals Lra Lia.
From Verif Require Import M_Py M_Np M_CC S_Base L_Base L_Np L_CC.
Import ListNotations.
Open Scope R_scope.


Definition comb (s t : R) (b c : list R) : list R := map2 (fun u v => s * u + t * v) b c.
Lemma comb_length s t b c : length b = length c -> length (comb s t b c) = length b.
Proof. intros H. unfold comb. rewrite map2_length. lia. Qed.
Lemma row_dot_comb s t : forall r b c, length b = length r -> length c = length r -> row_dot r (comb s t b c) = s * row_dot r b + t * row_dot r c.
Proof.
  unfold row_dot, comb. induction r as [|x r IH]; intros [|u b] [|v c] H H'; cbn [map2 length] in *; try discriminate; [rewrite ?pysum_nil; ring|].
  rewrite !pysum_cons, IH by lia. ring.
Qed.
Lemma rss_cons r X v y b : rss (r :: X) (v :: y) b = (v - row_dot r b) ^ 2 + rss X y b.
Proof. unfold rss. cbn [map2]. apply pysum_cons. Qed.
Definition size2 (X : list (list R)) (b : list R) : R := pysum (map (fun r => row_dot r b ^ 2) X).
Lemma size2_zero X b : size2 X b <= 0 -> forall r, In r X -> row_dot r b = 0.
Proof.
  unfold size2. assert (P : forall Y, 0 <= pysum (map (fun r => row_dot r b ^ 2) Y)).
  { induction Y as [|r Y IH]; [cbn [map]; rewrite pysum_nil; lra|]. cbn [map]. rewrite pysum_cons. pose proof (pow2_ge_0 (row_dot r b)). lra. }
  induction X as [|r X IH]; intros H s []; cbn [map] in H; rewrite pysum_cons in H; pose proof (pow2_ge_0 (row_dot r b)); specialize (P X).
  - subst s. assert (Z : row_dot r b ^ 2 = 0) by lra. rewrite <- Rsqr_pow2 in Z. apply Rsqr_0_uniq in Z. exact Z.
  - apply IH; [lra|assumption].
Qed.
Lemma rss_mid X : forall y b b', length X = length y -> (forall r, In r X -> length b = length r /\ length b' = length r) ->
  4 * rss X y (comb (/ 2) (/ 2) b b') = 2 * rss X y b + 2 * rss X y b' - size2 X (comb 1 (-1) b b').
Proof.
  unfold size2. induction X as [|r X IH]; intros [|v y] b b' H Hl; cbn [length] in H; try discriminate; [unfold rss; cbn [map2 map]; rewrite !pysum_nil; ring|].
  destruct (Hl r (or_introl eq_refl)) as [L L']. cbn [map]. rewrite !rss_cons, pysum_cons, !row_dot_comb by assumption.
  specialize (IH y b b' ltac:(lia) (fun s I => Hl s (or_intror I))).
  replace (4 * ((v - (/ 2 * row_dot r b + / 2 * row_dot r b')) ^ 2 + rss X y (comb (/ 2) (/ 2) b b'))) with
    (4 * (v - (/ 2 * row_dot r b + / 2 * row_dot r b')) ^ 2 + 4 * rss X y (comb (/ 2) (/ 2) b b')) by ring. rewrite IH. field.
Qed.

(** Two fits of the same data give the same values. *)
Lemma ols_unique X y b b' : length X = length y -> X <> [] -> is_ols X y b -> is_ols X y b' -> forall r, In r X -> row_dot r b = row_dot r b'.
Proof.
  intros HL Ne [Lb Mb] [Lb' Mb'] r Hr.
  assert (El : length b' = length b) by (rewrite (Lb r Hr), (Lb' r Hr); reflexivity).
  pose proof (Mb b' El) as H1. pose proof (Mb' b (eq_sym El)) as H2.
  pose proof (Mb (comb (/ 2) (/ 2) b b') ltac:(rewrite comb_length; [reflexivity|lia])) as H3.
  pose proof (rss_mid X y b b' HL (fun s I => conj (Lb s I) (Lb' s I))) as H4.
  assert (Z : row_dot r (comb 1 (-1) b b') = 0) by (apply (size2_zero X); [lra|exact Hr]).
  rewrite row_dot_comb in Z by (apply Lb || apply Lb'; exact Hr). lra.
Qed.
Lemma rss_shift X : forall y y' b c, length X = length y -> length X = length y' -> (forall r, In r X -> length b = length r /\ length c = length r) ->
  (forall i, (i < length X)%nat -> nth i y' 0 = nth i y 0 + row_dot (nth i X []) c) -> rss X y' b = rss X y (comb 1 (-1) b c).
Proof.
  induction X as [|r X IH]; intros [|v y] [|v' y'] b c H H' Hl Hy; cbn [length] in *; try discriminate; [reflexivity|].
  destruct (Hl r (or_introl eq_refl)) as [L L']. rewrite !rss_cons, row_dot_comb by assumption.
  rewrite (IH y y' b c) by (lia || (intros; apply Hl; right; assumption) || (intros i Hi; apply (Hy (S i)); lia)).
  specialize (Hy 0%nat ltac:(lia)). cbn [nth] in Hy. rewrite Hy. ring.
Qed.
(** Adding a combination of the columns to the data adds its coefficients to the fit. *)
Lemma ols_shift X y y' b c : length X = length y -> length X = length y' -> X <> [] -> length c = length b ->
  (forall i, (i < length X)%nat -> nth i y' 0 = nth i y 0 + row_dot (nth i X []) c) -> is_ols X y b -> is_ols X y' (comb 1 1 b c).
Proof.
  intros H H' Ne Hc Hy [Lb Mb]. assert (L1 : length (comb 1 1 b c) = length b) by (apply comb_length; lia).
  split; [intros r Hr; rewrite L1; apply Lb; exact Hr|]. intros b' Hb'.
  assert (Lc : forall r, In r X -> length c = length r) by (intros r Hr; rewrite Hc; apply Lb; exact Hr).
  rewrite (rss_shift X y y' b' c H H') by (first [exact Hy|intros r Hr; rewrite Hb', L1; split; [apply Lb|apply Lc]; exact Hr]).
  rewrite (rss_shift X y y' (comb 1 1 b c) c H H') by (first [exact Hy|intros r Hr; rewrite L1; split; [apply Lb|apply Lc]; exact Hr]).
  replace (comb 1 (-1) (comb 1 1 b c) c) with b; [apply Mb; rewrite comb_length; lia|].
  clear - Hc. unfold comb. revert c Hc. induction b as [|u b IH]; intros [|v c] Hc; cbn in *; try discriminate; [reflexivity|]. f_equal; [ring|apply IH; lia].
Qed.

(** ** A fit exists *)
Fixpoint lin (cs : list (nat -> R)) (b : list R) (i : nat) : R :=
  match cs, b with c :: cs, x :: b => x * c i + lin cs b i | _, _ => 0 end.
Definition ip (m : nat) (f g : nat -> R) : R := Rsum m (fun i => f i * g i).
Lemma ip_lin m f g h s t : ip m (fun i => s * f i + t * g i) h = s * ip m f h + t * ip m g h.
Proof.
  unfold ip. induction m as [|m IH]; cbn [Rsum]; [ring|]. rewrite IH. ring.
Qed.
Lemma ip_ext m f f' g g' : (forall i, (i < m)%nat -> f i = f' i) -> (forall i, (i < m)%nat -> g i = g' i) -> ip m f g = ip m f' g'.
Proof. intros H H'. unfold ip. apply Rsum_ext. intros i Hi. rewrite H, H' by exact Hi. reflexivity. Qed.
Lemma ip_sym m f g : ip m f g = ip m g f.
Proof. unfold ip. apply Rsum_ext. intros. ring. Qed.
Lemma ip_span m f cs : forall b, (forall c, In c cs -> ip m f c = 0) -> ip m f (lin cs b) = 0.
Proof.
  induction cs as [|c cs IH]; intros b H.
  - rewrite ip_sym. rewrite (ip_ext m (lin [] b) (fun i => 0 * f i + 0 * f i) f f) by (reflexivity || (intros; cbn; destruct b; ring)). rewrite ip_lin. ring.
  - destruct b as [|x b].
    + rewrite ip_sym. rewrite (ip_ext m (lin (c :: cs) []) (fun i => 0 * f i + 0 * f i) f f) by (reflexivity || (intros; cbn; ring)). rewrite ip_lin. ring.
    + rewrite ip_sym. rewrite (ip_ext m _ (fun i => x * c i + 1 * lin cs b i) f f) by (reflexivity || (intros; cbn [lin]; ring)).
      rewrite ip_lin, ip_sym, (H c (or_introl eq_refl)), ip_sym, IH by (intros d Hd; apply H; right; exact Hd). ring.
Qed.
Lemma lin_comb s t cs : forall b c i, length b = length cs -> length c = length cs -> lin cs (comb s t b c) i = s * lin cs b i + t * lin cs c i.
Proof.
  induction cs as [|d cs IH]; intros [|x b] [|z c] i H H'; cbn [length] in *; try discriminate; cbn; [ring|]. change (map2 (fun u v => s * u + t * v) b c) with (comb s t b c).
  rewrite IH by lia. ring.
Qed.
Lemma ip_pos m f : 0 <= ip m f f.
Proof. unfold ip. apply Rsum_nonneg. intros i _. nra. Qed.
Lemma ip_zero m f : ip m f f = 0 -> forall i, (i < m)%nat -> f i = 0.
Proof.
  unfold ip. induction m as [|m IH]; intros H i Hi; [lia|]. cbn [Rsum] in H. assert (P := ip_pos m f). unfold ip in P.
  assert (0 <= f m * f m) by nra. destruct (Nat.eq_dec i m) as [->|Ne]; [nra|]. apply IH; [lra|lia].
Qed.
Lemma project m cs : forall y, exists b, length b = length cs /\ forall c, In c cs -> ip m (fun i => y i - lin cs b i) c = 0.
Proof.
  induction cs as [|z cs IH]; intros y; [exists []; split; [reflexivity|intros c []]|].
  destruct (IH z) as (a & La & Ha). destruct (IH y) as (b & Lb & Hb). set (r := fun i => z i - lin cs a i) in *. set (e := fun i => y i - lin cs b i) in *.
  assert (Z : forall f, ip m f z = ip m f r + ip m f (lin cs a)).
  { intros f. rewrite (ip_sym m f z), (ip_sym m f r), (ip_sym m f (lin cs a)). rewrite (ip_ext m z (fun i => 1 * r i + 1 * lin cs a i) f f) by (reflexivity || (intros; unfold r; ring)). rewrite ip_lin. ring. }
  destruct (Req_EM_T (ip m r r) 0) as [Er|Nr].
  - exists (0 :: b). split; [cbn; lia|]. intros c [<-|Hc].
    + rewrite (ip_ext m _ e z z) by (reflexivity || (intros; cbn [lin]; unfold e; ring)). rewrite Z, (ip_span m e cs a Hb).
      rewrite (ip_sym m e r). rewrite (ip_ext m r (fun i => 0 * e i + 0 * e i) e e) by (reflexivity || (intros i Hi; rewrite (ip_zero m r Er i Hi); ring)). rewrite ip_lin. ring.
    + rewrite (ip_ext m _ e c c) by (reflexivity || (intros; cbn [lin]; unfold e; ring)). apply Hb. exact Hc.
  - set (t := ip m e r / ip m r r). exists (t :: comb 1 (- t) b a). split; [cbn [length]; rewrite comb_length; lia|].
    assert (Ee : forall i, y i - lin (z :: cs) (t :: comb 1 (- t) b a) i = 1 * e i + (- t) * r i).
    { intros i. cbn [lin]. rewrite lin_comb by lia. unfold e, r. ring. }
    assert (O : forall c, In c cs -> ip m (fun i => y i - lin (z :: cs) (t :: comb 1 (- t) b a) i) c = 0).
    { intros c Hc. rewrite (ip_ext m _ (fun i => 1 * e i + (- t) * r i) c c) by (reflexivity || (intros; apply Ee)). rewrite ip_lin, (Hb c Hc), (Ha c Hc). ring. }
    intros c [<-|Hc]; [|apply O; exact Hc]. rewrite Z, (ip_span m _ cs a O).
    rewrite (ip_ext m _ (fun i => 1 * e i + (- t) * r i) r r) by (reflexivity || (intros; apply Ee)). rewrite ip_lin. unfold t. field. exact Nr.
Qed.
Lemma row_dot_lin r : forall b (f : nat -> list R) i, f i = r -> length b = length r -> row_dot r b = lin (map (fun j i => nth j (f i) 0) (seq 0 (length r))) b i.
Proof.
  intros b f i E L. assert (G : forall s r' b', length b' = length r' -> (forall j, nth j r' 0 = nth (s + j) r 0) -> row_dot r' b' = lin (map (fun j i => nth j (f i) 0) (seq s (length r'))) b' i).
  { intros s r'. revert s. induction r' as [|x r' IH]; intros s [|u b'] L' H; cbn [length] in *; try discriminate; [unfold row_dot; cbn; apply pysum_nil|].
    unfold row_dot. cbn [map2 seq map lin]. rewrite pysum_cons. fold (row_dot r' b'). rewrite (IH (S s) b') by (lia || (intros j; specialize (H (S j)); rewrite Nat.add_succ_r in H; exact H)).
    specialize (H 0%nat). rewrite Nat.add_0_r in H. rewrite E, <- H. cbn [nth]. ring. }
  apply (G 0%nat); [exact L|reflexivity].
Qed.
Lemma rss_ip X y b p : length X = length y -> (forall r, In r X -> length r = p) -> length b = p ->
  rss X y b = let e := fun i => nth i y 0 - lin (map (fun j i => nth j (nth i X []) 0) (seq 0 p)) b i in ip (length X) e e.
Proof.
  intros H Hr Hb. unfold rss. rewrite pysum_Rsum, map2_length, H, Nat.min_id. unfold ip. apply Rsum_ext. intros i Hi.
  assert (Hi' : (i < length X)%nat) by lia. assert (Lr := Hr (nth i X []) (nth_In _ _ Hi')).
  rewrite (map2_nth _ _ _ _ _ _ _ [] 0) by lia. rewrite (row_dot_lin (nth i X []) b (fun i => nth i X []) i eq_refl) by congruence. rewrite Lr. ring.
Qed.
Lemma ols_exists X y p : length X = length y -> (forall r, In r X -> length r = p) -> exists b, length b = p /\ is_ols X y b.
Proof.
  intros H Hr. set (cs := map (fun j i => nth j (nth i X []) 0) (seq 0 p)). assert (Lc : length cs = p) by (unfold cs; rewrite map_length, seq_length; reflexivity).
  destruct (project (length X) cs (fun i => nth i y 0)) as (b & Lb & Hb). exists b. split; [congruence|]. split; [intros r I; rewrite (Hr r I); congruence|].
  intros b' Lb'. rewrite (rss_ip X y b p H Hr) by congruence. rewrite (rss_ip X y b' p H Hr) by congruence. fold cs. cbv zeta.
  set (e := fun i => nth i y 0 - lin cs b i) in *. set (d := lin cs (comb 1 (-1) b' b)).
  assert (E : forall i, (i < length X)%nat -> nth i y 0 - lin cs b' i = 1 * e i + (-1) * d i) by (intros i _; unfold d, e; rewrite lin_comb by congruence; ring).
  set (f := fun i => 1 * e i + (-1) * d i) in E. rewrite (ip_ext _ _ f _ f E E). pose proof (ip_span _ e cs (comb 1 (-1) b' b) Hb) as O. fold d in O.
  pose proof (ip_lin (length X) e d f 1 (-1)) as Q1. pose proof (ip_lin (length X) e d e 1 (-1)) as Q2. pose proof (ip_lin (length X) e d d 1 (-1)) as Q3. fold f in Q1, Q2, Q3.
  rewrite (ip_sym _ e f), (ip_sym _ d f) in Q1. rewrite (ip_sym _ d e) in Q2. pose proof (ip_pos (length X) d). lra.
Qed.
