(** Properties C88 and C89: mantle Bouguer anomalies (RMBA_calc.py). *)
From Coq Require Import List Permutation Sorted Reals Arith Lia Lra Bool.
From Coquelicot Require Import Rbar.
From Verif Require S_Coh P_Coh.
From Verif Require Import M_Py M_CC M_Erf M_Four M_Therm M_Faa M_Ext M_Coh M_Rmba S_Base S_Four S_Therm S_Faa S_Rmba L_Base L_Np L_CC L_Four L_Erf L_Therm L_Faa P_Four P_Ext.
Import ListNotations.
Open Scope R_scope.

Lemma temps_nth i : (i < 28)%nat -> nth i temps 0 = 50 * INR i.
Proof. intros H. unfold temps. rewrite nth_map_seq by exact H. reflexivity. Qed.
Lemma rho_nth s : (s < 31)%nat -> nth s ([1000; 2100; 2900] ++ rhos) 0 = layer_density s.
Proof.
  intros H. destruct s as [|[|[|i]]]; try reflexivity. cbn [app nth layer_density]. unfold rhos, temps. rewrite map_map, nth_map_seq by lia. reflexivity.
Qed.
Lemma drho_nth s : (s < 30)%nat -> nth s drho 0 = layer_density (S s) - layer_density s.
Proof.
  intros H. unfold drho. assert (L : length ([1000; 2100; 2900] ++ rhos) = 31%nat) by (unfold rhos, temps; rewrite app_length, !map_length, seq_length; reflexivity).
  rewrite nth_np_diff by (rewrite L; lia). rewrite !rho_nth by lia. reflexivity.
Qed.

(** C88: the contrasts lead from water to mantle at its full temperature; every layer of the mantle has the density of its lower isotherm. *)
Theorem C88_contrasts : length drho = 30%nat /\ (forall s, (s <= 30)%nat -> 1000 + Rsum s (fun i => nth i drho 0) = layer_density s) /\
  (forall i, (i < 27)%nat -> nth (i + 3) drho 0 = -4.95) /\ 1000 + Rsum 30 (fun i => nth i drho 0) = 3300.
Proof.
  assert (A : forall s, (s <= 30)%nat -> 1000 + Rsum s (fun i => nth i drho 0) = layer_density s).
  { induction s as [|s IH]; intros H; [cbn; lra|]. cbn [Rsum]. rewrite drho_nth by lia. specialize (IH ltac:(lia)). lra. }
  split; [unfold drho; rewrite np_diff_length; unfold rhos, temps; rewrite app_length, !map_length, seq_length; reflexivity|]. split; [exact A|]. split.
  - intros i Hi. rewrite drho_nth by lia. replace (i + 3)%nat with (S (S (S i))) by lia. unfold layer_density, mantle_density. rewrite S_INR. lra.
  - rewrite A by lia. unfold layer_density, mantle_density. replace (INR 27) with 27 by (cbn; lra). lra.
Qed.
Print Assumptions C88_contrasts.

Lemma map2_some (f : R -> R -> R) (g : option R -> option R -> option R) a b : (forall x y, g (Some x) (Some y) = Some (f x y)) -> map2 g (map Some a) (map Some b) = map Some (map2 f a b).
Proof. intros H. revert b. induction a as [|x a IH]; intros [|y b]; try reflexivity. cbn. rewrite H. f_equal. apply IH. Qed.
Lemma osub_some a b : map2 osub (map Some a) (map Some b) = map Some (map2 Rminus a b).
Proof. apply map2_some. reflexivity. Qed.
Lemma nan_grav1d_some xobs t r : nan_grav1d xobs (map Some t) r = do a <- grav1d_padded xobs t 0 r; Ok (map Some a).
Proof. unfold nan_grav1d. rewrite finite_map. reflexivity. Qed.

(** depth factor of an isotherm *)
Lemma isotherm_some age T : 0 <= T < 1350 -> (forall a, In a age -> 0 <= a) ->
  exists r, 0 <= r /\ (T = 0 -> r = 0) /\ 1350 * erf r = T /\ isotherm (map Some age) T = Ok (map (fun a => Some (2 * sqrt (1e-6 * age_s true 1 a) * r)) age).
Proof.
  intros HT Ha. assert (Hy : 0 < (T - 1350) / (To - 1350) <= 1) by (unfold To; replace ((T - 1350) / (0 - 1350)) with ((1350 - T) / 1350) by field; split; [apply Rdiv_lt_0_compat; lra|lra]).
  destruct (erfcinv_spec ((T - 1350) / (To - 1350)) ltac:(lra)) as [r [Er Hr]]. exists r.
  assert (R0 : 1350 * erf r = T) by (replace (erf r) with (1 - (T - 1350) / (To - 1350)) by lra; unfold To; field).
  assert (Rn : 0 <= r) by (destruct (Rlt_le_dec r 0) as [H|H]; [apply erf_neg in H; lra|exact H]).
  split; [exact Rn|]. split.
  - intros ->. destruct (Rle_lt_or_eq_dec _ _ Rn) as [H|H]; [|symmetry; exact H]. pose proof (erf_increasing 0 r H) as I. rewrite erf_0 in I. lra.
  - split; [exact R0|]. unfold isotherm. rewrite map_map, map_id. unfold therm_Z_halfspace. destruct (Req_EM_T 1350 To) as [Q|_]; [unfold To in Q; lra|]. destruct (Req_EM_T 3300 1000); [lra|]. cbn [bind fst]. f_equal.
    rewrite Er. clear - Ha. induction age as [|a age IH]; [reflexivity|]. cbn [map map2]. rewrite IH by (intros b Hb; apply Ha; right; exact Hb). f_equal.
    rewrite therm_time_spec by lra. assert (E : age_s true 0.01 a = age_s true 1 a) by reflexivity. rewrite E. unfold np_sqrt. assert (P : 0 <= age_s true 1 a) by (unfold age_s, year_s; specialize (Ha a (or_introl eq_refl)); lra).
    destruct (Rlt_dec (1e-6 * age_s true 1 a) 0); [lra|]. reflexivity.
Qed.

Lemma finite_choice (A : Type) (d : A) (P : nat -> A -> Prop) n : (forall i, (i < n)%nat -> exists x, P i x) -> exists f, forall i, (i < n)%nat -> P i (f i).
Proof.
  induction n as [|n IH]; intros H; [exists (fun _ => d); intros i Hi; lia|]. destruct IH as [f Hf]; [intros i Hi; apply H; lia|]. destruct (H n ltac:(lia)) as [x Hx].
  exists (fun i => if (i =? n)%nat then x else f i). intros i Hi. destruct (Nat.eqb_spec i n) as [->|N]; [exact Hx|apply Hf; lia].
Qed.
Lemma mapM_const_ok (A B : Type) (f : A -> res B) g l : (forall a, In a l -> f a = Ok (g a)) -> mapM f l = Ok (map g l).
Proof. induction l as [|a l IH]; intros H; [reflexivity|]. cbn [mapM map]. rewrite (H a) by (left; reflexivity). cbn [bind]. rewrite IH by (intros b Hb; apply H; right; exact Hb). reflexivity. Qed.
Lemma fold_oadd l x : fold_left oadd (map Some l) (Some x) = Some (fold_left Rplus l x).
Proof. revert x. induction l as [|a l IH]; intros x; [reflexivity|]. cbn. apply IH. Qed.
Lemma map2_seq (f : R -> R -> R) a b n : length a = n -> length b = n -> map2 f a b = map (fun j => f (nth j a 0) (nth j b 0)) (seq 0 n).
Proof.
  intros Ha Hb. apply (list_eq_nth _ _ _ 0); [rewrite map2_len, map_length, seq_length by lia; lia|]. intros j Hj. rewrite map2_len in Hj by lia. rewrite L_Faa.map2_nth by lia. rewrite nth_map_seq by lia. reflexivity.
Qed.

Definition surf (dep sed : list R) (z : nat -> nat -> R) (n s : nat) : list R := map (surface dep sed z s) (seq 0 n).
Lemma rmba_ok xobs faa dep sed age n (z : nat -> nat -> R) (anom : nat -> list R) :
  length xobs = n -> length faa = n -> length dep = n -> length sed = n -> length age = n ->
  (forall i, (i < 27)%nat -> isotherm (map Some age) (50 * INR i) = Ok (map (fun j => Some (z i j)) (seq 0 n))) ->
  (forall s, (s < 30)%nat -> grav1d_padded xobs (surf dep sed z n s) 0 (layer_density (S s) - layer_density s) = Ok (anom s) /\ length (anom s) = n) ->
  exists M RM, rmba xobs (map Some faa) (map Some dep) (map Some sed) (map Some age) = Ok (map Some M, map Some RM) /\ length M = n /\ length RM = n /\
    forall j, (j < n)%nat -> nth j M 0 = nth j faa 0 - Rsum 3 (fun s => nth j (anom s) 0) /\ nth j RM 0 = nth j faa 0 - Rsum 30 (fun s => nth j (anom s) 0).
Proof.
  intros Lx Lf Ld Ls La Hz Hg. unfold rmba. rewrite osub_some. set (base := map2 Rminus dep sed).
  assert (Eb : base = surf dep sed z n 1) by (unfold base; rewrite (map2_seq Rminus dep sed n Ld Ls); reflexivity).
  assert (Ed : dep = surf dep sed z n 0) by (unfold surf; apply (list_eq_nth _ _ _ 0); [rewrite map_length, seq_length; exact Ld|intros j Hj; rewrite nth_map_seq by lia; reflexivity]).
  assert (Ec : map (fun o => osub o (Some dz_c)) (map Some base) = map Some (surf dep sed z n 2)) by (rewrite Eb; unfold surf; rewrite !map_map; apply map_ext; intros j; reflexivity).
  destruct (Hg 0%nat ltac:(lia)) as [G0 L0]. destruct (Hg 1%nat ltac:(lia)) as [G1 L1]. destruct (Hg 2%nat ltac:(lia)) as [G2 L2]. rewrite <- Ed in G0. rewrite <- Eb in G1.
  rewrite Ec, !nan_grav1d_some, !drho_nth by lia. rewrite G0. cbn [bind]. rewrite G1. cbn [bind]. rewrite G2. cbn [bind]. rewrite !osub_some.
  rewrite (mapM_const_ok _ _ _ (fun i => map Some (anom (i + 3)%nat))).
  2:{ intros i Hi. assert (Hi' : (i < 27)%nat) by (unfold temps in Hi; rewrite map_length, seq_length in Hi; apply in_seq in Hi; lia). rewrite temps_nth by lia. rewrite Hz by exact Hi'. cbn [bind].
      rewrite <- (map_map (z i) Some). rewrite osub_some.
      assert (E : map (fun o => osub o (Some dz_c)) (map Some (map2 Rminus base (map (z i) (seq 0 n)))) = map Some (surf dep sed z n (i + 3))).
      { rewrite Eb. unfold surf. rewrite (map2_seq Rminus _ _ n) by (rewrite map_length, seq_length; reflexivity). rewrite !map_map. apply map_ext_in. intros j Hj. apply in_seq in Hj. rewrite !nth_map_seq by lia.
        replace (i + 3)%nat with (S (S (S i))) by lia. reflexivity. }
      rewrite E, nan_grav1d_some, drho_nth by lia. destruct (Hg (i + 3)%nat ltac:(lia)) as [-> _]. reflexivity. }
  cbn [bind]. set (M := map2 Rminus (map2 Rminus (map2 Rminus faa (anom 0%nat)) (anom 1%nat)) (anom 2%nat)).
  assert (LM : length M = n) by (unfold M; rewrite !map2_len; repeat rewrite map2_len; lia).
  assert (T : map (fun j => fold_left oadd (map (fun row => nth j row None) (map (fun i => map Some (anom (i + 3)%nat)) (seq 0 (length temps - 1)))) (Some 0)) (seq 0 (length xobs)) =
              map Some (map (fun j => Rsum 27 (fun i => nth j (anom (i + 3)%nat) 0)) (seq 0 n))).
  { rewrite Lx, map_map. apply map_ext_in. intros j Hj. apply in_seq in Hj. rewrite map_map. assert (L27 : (length temps - 1 = 27)%nat) by (unfold temps; rewrite map_length, seq_length; reflexivity). rewrite L27.
    rewrite (map_ext_in _ (fun i => Some (nth j (anom (i + 3)%nat) 0))).
    - rewrite <- (map_map (fun i => nth j (anom (i + 3)%nat) 0) Some), fold_oadd. cbv beta. apply f_equal.
      exact (pysum_map_seq (fun i => nth j (anom (i + 3)%nat) 0) 27).
    - intros i Hi. apply in_seq in Hi. destruct (Hg (i + 3)%nat ltac:(lia)) as [_ L]. rewrite (nth_indep _ None (Some 0)) by (rewrite map_length; lia). apply map_nth. }
  rewrite T, osub_some. eexists M, _. split; [reflexivity|]. split; [exact LM|]. split; [rewrite map2_len; rewrite ?map_length, ?seq_length; lia|].
  intros j Hj. assert (EM : nth j M 0 = nth j faa 0 - Rsum 3 (fun s => nth j (anom s) 0)).
  { unfold M. rewrite !L_Faa.map2_nth; repeat rewrite map2_len; try lia. cbn [Rsum]. ring. }
  split; [exact EM|]. rewrite L_Faa.map2_nth by (rewrite ?map_length, ?seq_length; lia). rewrite EM, nth_map_seq by lia. change 30%nat with (3 + 27)%nat. rewrite Rsum_split.
  rewrite (Rsum_ext 27 (fun i => nth j (anom (3 + i)%nat) 0) (fun i => nth j (anom (i + 3)%nat) 0)) by (intros i _; rewrite Nat.add_comm; reflexivity). ring.
Qed.

(** The mantle Bouguer anomaly lacks the gravity of sea floor, basement and base of the crust; the residual anomaly that of 27 isotherms below the crust as well. *)
Theorem C88_surfaces : forall x0 xs faa dep sed age n, length (x0 :: xs) = n -> (2 <= n)%nat -> Nat.even n = true -> last (x0 :: xs) 0 <> x0 ->
  length faa = n -> length dep = n -> length sed = n -> length age = n -> (forall a, In a age -> 0 <= a) ->
  exists z M RM, (forall i j, (i < 27)%nat -> (j < n)%nat -> isotherm_depth (nth j age 0) (50 * INR i) (z i j)) /\ (forall j, (j < n)%nat -> z 0%nat j = 0) /\
    rmba (x0 :: xs) (map Some faa) (map Some dep) (map Some sed) (map Some age) = Ok (map Some M, map Some RM) /\ length M = n /\ length RM = n /\
    forall j, (j < n)%nat ->
      let g s := surface_gravity n ((last (x0 :: xs) 0 - x0) / (INR n - 1)) (map (surface dep sed z s) (seq 0 n)) (layer_density (S s) - layer_density s) j in
      nth j M 0 = nth j faa 0 - Rsum 3 g /\ nth j RM 0 = nth j faa 0 - Rsum 30 g.
Proof.
  intros x0 xs faa dep sed age n Lx Hn He Hl Lf Ld Ls La Ha.
  destruct (finite_choice R 0 (fun i r => 0 <= r /\ (50 * INR i = 0 -> r = 0) /\ 1350 * erf r = 50 * INR i /\ isotherm (map Some age) (50 * INR i) = Ok (map (fun a => Some (2 * sqrt (1e-6 * age_s true 1 a) * r)) age)) 27) as [r Hr].
  { intros i Hi. apply isotherm_some; [|exact Ha]. assert (INR i <= 26) by (replace 26 with (INR 26) by (cbn; lra); apply le_INR; lia). pose proof (pos_INR i). lra. }
  set (z := fun i j => 2 * sqrt (1e-6 * age_s true 1 (nth j age 0)) * r i). exists z.
  destruct (finite_choice (list R) [] (fun s a => grav1d_padded (x0 :: xs) (surf dep sed z n s) 0 (layer_density (S s) - layer_density s) = Ok a /\ length a = n /\
      forall j, (j < n)%nat -> nth j a 0 = surface_gravity n ((last (x0 :: xs) 0 - x0) / (INR n - 1)) (surf dep sed z n s) (layer_density (S s) - layer_density s) j) 30) as [anom Hg].
  { intros s Hs. destruct (C42_parker_series x0 xs (surf dep sed z n s) 0 (layer_density (S s) - layer_density s) n Lx) as (a & E & L & V); [unfold surf; rewrite map_length, seq_length; reflexivity|exact Hn|exact He|exact Hl|].
    exists a. split; [exact E|]. split; [exact L|]. exact V. }
  destruct (rmba_ok (x0 :: xs) faa dep sed age n z anom Lx Lf Ld Ls La) as (M & RM & E & LM & LR & V).
  - intros i Hi. destruct (Hr i Hi) as (_ & _ & _ & ->). f_equal. apply (list_eq_nth _ _ _ None); [rewrite !map_length, seq_length; exact La|]. intros j Hj. rewrite map_length in Hj. rewrite nth_map_seq by lia. rewrite (nth_map _ _ _ _ _ _ 0) by lia. reflexivity.
  - intros s Hs. destruct (Hg s Hs) as (A & B & _). auto.
  - exists M, RM. split; [|split; [|split; [exact E|]]].
    + intros i j Hi Hj. destruct (Hr i Hi) as (R0 & R1 & R2 & _). assert (A : 0 <= nth j age 0) by (apply Ha, nth_In; lia). split; [exact A|]. unfold z, age_s, year_s. split.
      * intros ->. replace (1e-6 * (1000000 * 0 * 31557600)) with 0 by lra. rewrite sqrt_0. ring.
      * intros P. assert (Q : 0 < sqrt (1e-6 * (1000000 * nth j age 0 * 31557600))) by (apply sqrt_lt_R0; lra). rewrite <- R2. f_equal. f_equal. set (q := sqrt _) in *. field. lra.
    + intros j Hj. destruct (Hr 0%nat ltac:(lia)) as (_ & R1 & _). unfold z. rewrite R1 by (cbn; ring). ring.
    + split; [exact LM|]. split; [exact LR|]. intros j Hj. destruct (V j Hj) as [V1 V2]. cbv zeta. rewrite V1, V2. split; f_equal; apply Rsum_ext; intros s Hs; apply (Hg s); lia.
Qed.
Print Assumptions C88_surfaces.

(** The depths of the isotherms are determined. *)
Theorem C88_depth_unique : forall age T z z', isotherm_depth age T z -> isotherm_depth age T z' -> z = z'.
Proof.
  intros age T z z' (A & B & C) (_ & B' & C'). destruct (Rle_lt_or_eq_dec _ _ A) as [P|P]; [|rewrite B, B' by lra; reflexivity]. specialize (C P). specialize (C' P).
  assert (Q : 0 < sqrt (1e-6 * age_s true 1 age)) by (apply sqrt_lt_R0; unfold age_s, year_s; lra). set (q := sqrt _) in *. assert (E : z / (2 * q) = z' / (2 * q)) by (apply erf_inj; lra).
  replace z with (z / (2 * q) * (2 * q)) by (field; lra). rewrite E. field. lra.
Qed.
Print Assumptions C88_depth_unique.

(** Where depth, sediment and age do not vary nothing is corrected. *)
Theorem C88_flat : forall x0 xs faa d s a n, length (x0 :: xs) = n -> (2 <= n)%nat -> last (x0 :: xs) 0 <> x0 -> length faa = n -> 0 <= a ->
  rmba (x0 :: xs) (map Some faa) (map Some (repeat d n)) (map Some (repeat s n)) (map Some (repeat a n)) = Ok (map Some faa, map Some faa).
Proof.
  intros x0 xs faa d s a n Lx Hn Hl Lf Ha.
  assert (Hz : forall i, (i < 27)%nat -> exists c, isotherm (map Some (repeat a n)) (50 * INR i) = Ok (map (fun _ => Some c) (seq 0 n))).
  { intros i Hi. destruct (isotherm_some (repeat a n) (50 * INR i)) as (r & _ & _ & _ & E).
    - assert (INR i <= 26) by (replace 26 with (INR 26) by (cbn; lra); apply le_INR; lia). pose proof (pos_INR i). lra.
    - intros b Hb. apply repeat_spec in Hb. lra.
    - exists (2 * sqrt (1e-6 * age_s true 1 a) * r). rewrite E. f_equal. apply (list_eq_nth _ _ _ None); [rewrite !map_length, repeat_length, seq_length; reflexivity|]. intros j Hj. rewrite map_length, repeat_length in Hj.
      rewrite nth_map_seq by lia. rewrite (nth_map _ _ _ _ _ _ 0) by (rewrite repeat_length; lia). rewrite nth_repeat_lt by lia. reflexivity. }
  destruct (finite_choice R 0 _ 27 Hz) as [c Hc].
  destruct (rmba_ok (x0 :: xs) faa (repeat d n) (repeat s n) (repeat a n) n (fun i _ => c i) (fun _ => repeat 0 n)) as (M & RM & E & LM & LR & V); try (exact Lx || exact Lf || apply repeat_length).
  - exact Hc.
  - intros k Hk. split; [|apply repeat_length]. assert (Q : exists h, surf (repeat d n) (repeat s n) (fun i _ => c i) n k = repeat h n).
    { exists (surface (repeat d n) (repeat s n) (fun i _ => c i) k 0). unfold surf. apply (list_eq_nth _ _ _ 0); [rewrite map_length, seq_length, repeat_length; reflexivity|]. intros j Hj. rewrite map_length, seq_length in Hj.
      rewrite nth_map_seq by lia. rewrite nth_repeat_lt by lia. unfold surface. destruct k as [|[|[|k]]]; rewrite ?nth_repeat_lt by lia; reflexivity. }
    destruct Q as [h ->]. apply C41_flat_profile; assumption.
  - rewrite E. assert (Z : forall j m, (j < n)%nat -> Rsum m (fun _ => nth j (repeat 0 n) 0) = 0) by (intros j m Hj; apply Rsum_eq0; intros; apply nth_repeat_lt; exact Hj).
    do 2 f_equal; f_equal; apply (list_eq_nth _ _ _ 0); try lia; intros j Hj; destruct (V j ltac:(lia)) as [V1 V2]; [rewrite V1|rewrite V2]; rewrite Z by lia; ring.
Qed.
Print Assumptions C88_flat.

(** One missing depth or thickness and both anomalies are missing along the whole line; one missing or negative age and the residual anomaly is. *)
Lemma finite_none l j : (j < length l)%nat -> nth j l None = None -> finite l = None.
Proof. intros H E. destruct (finite l) as [m|] eqn:F; [|reflexivity]. apply finite_spec in F. subst l. rewrite map_length in H. rewrite (nth_indep _ None (Some 0)) in E by (rewrite map_length; exact H). rewrite map_nth in E. discriminate. Qed.
Lemma nan_missing x0 xs p r j : (j < length p)%nat -> nth j p None = None -> nan_grav1d (x0 :: xs) p r = Ok (repeat None (length (x0 :: xs))).
Proof. intros H E. unfold nan_grav1d. rewrite (finite_none p j H E). reflexivity. Qed.
Lemma nan_total x0 xs p r n : length (x0 :: xs) = n -> (2 <= n)%nat -> last (x0 :: xs) 0 <> x0 -> length p = n -> exists a, nan_grav1d (x0 :: xs) p r = Ok a /\ length a = n.
Proof.
  intros Lx Hn Hl Lp. unfold nan_grav1d. destruct (finite p) as [t|] eqn:F; [|eexists; split; [reflexivity|rewrite repeat_length; exact Lx]]. apply finite_spec in F. subst p. rewrite map_length in Lp.
  destruct (grav1d_formula x0 xs t 0 r n Lx Lp Hn Hl) as (a & -> & L & _). cbn [bind]. eexists. split; [reflexivity|]. rewrite map_length. exact L.
Qed.
Lemma map2_none_l (b : list (option R)) n : length b = n -> map2 osub (repeat None n) b = repeat None n.
Proof. revert n. induction b as [|x b IH]; intros [|n] H; try discriminate; [reflexivity|]. cbn. f_equal. apply IH. cbn in H. lia. Qed.
Lemma map2_none_r (b : list (option R)) n : length b = n -> map2 osub b (repeat None n) = repeat None n.
Proof. revert n. induction b as [|x b IH]; intros [|n] H; try discriminate; [reflexivity|]. cbn. destruct x; f_equal; apply IH; cbn in H; lia. Qed.
Lemma omap2_len (a b : list (option R)) n : length a = n -> length b = n -> length (map2 osub a b) = n.
Proof. intros <- H. rewrite map2_length. lia. Qed.
Lemma omap2_nth (a b : list (option R)) n j : length a = n -> length b = n -> (j < n)%nat -> nth j (map2 osub a b) None = osub (nth j a None) (nth j b None).
Proof. intros Ha Hb Hj. apply L_Base.map2_nth; lia. Qed.
Lemma osub_none_l b : osub None b = None. Proof. reflexivity. Qed.
Lemma osub_none_r a : osub a None = None. Proof. destruct a; reflexivity. Qed.
Lemma fold_oadd_none l : fold_left oadd l None = None.
Proof. induction l as [|x l IH]; [reflexivity|]. exact IH. Qed.
Lemma isotherm_total age T : exists z, isotherm age T = Ok z /\ length z = length age /\ forall j, (j < length age)%nat -> (nth j age None = None \/ exists a, nth j age None = Some a /\ a < 0) -> nth j z None = None.
Proof.
  unfold isotherm, therm_Z_halfspace. destruct (Req_EM_T 1350 To) as [Q|_]; [unfold To in Q; lra|]. destruct (Req_EM_T 3300 1000); [lra|]. cbn [bind fst]. eexists. split; [reflexivity|]. split; [rewrite map2_length, !map_length; lia|].
  intros j Hj H. rewrite (L_Base.map2_nth _ _ _ _ _ _ _ None None) by (rewrite ?map_length; exact Hj). destruct H as [->|(a & Ea & Ha)]; [reflexivity|]. rewrite Ea, map_map, map_map.
  rewrite (nth_map _ _ _ _ _ _ (Some 0)) by exact Hj. rewrite (nth_indep _ (Some 0) None) by exact Hj. rewrite Ea. rewrite therm_time_spec by lra. unfold np_sqrt.
  destruct (Rlt_dec (1e-6 * age_s true 0.01 a) 0) as [_|N]; [reflexivity|]. exfalso. apply N. unfold age_s, year_s. lra.
Qed.
Theorem C88_missing : forall x0 xs faa dep sed age n j, length (x0 :: xs) = n -> (2 <= n)%nat -> last (x0 :: xs) 0 <> x0 ->
  length faa = n -> length dep = n -> length sed = n -> length age = n -> (j < n)%nat ->
  (nth j dep None = None -> rmba (x0 :: xs) faa dep sed age = Ok (repeat None n, repeat None n)) /\
  (nth j sed None = None -> rmba (x0 :: xs) faa dep sed age = Ok (repeat None n, repeat None n)) /\
  (nth j age None = None \/ (exists a, nth j age None = Some a /\ a < 0) -> exists M, length M = n /\ rmba (x0 :: xs) faa dep sed age = Ok (M, repeat None n)).
Proof.
  intros x0 xs faa dep sed age n j Lx Hn Hl Lf Ld Ls La Hj.
  assert (Lb : length (map2 osub dep sed) = n) by (apply omap2_len; assumption).
  assert (N : forall p r, length p = n -> nth j p None = None -> nan_grav1d (x0 :: xs) p r = Ok (repeat None n)) by (intros p r Lp E; rewrite (nan_missing x0 xs p r j) by (lia || exact E); rewrite Lx; reflexivity).
  assert (G : forall p r, length p = n -> exists a, nan_grav1d (x0 :: xs) p r = Ok a /\ length a = n) by (intros p r Lp; apply nan_total; assumption).
  assert (Row : forall i, exists row, (do ziso <- isotherm age (nth i temps 0); nan_grav1d (x0 :: xs) (map (fun o => osub o (Some dz_c)) (map2 osub (map2 osub dep sed) ziso)) (nth (i + 3) drho 0)) = Ok row /\ length row = n).
  { intros i. destruct (isotherm_total age (nth i temps 0)) as (z & -> & Lz & _). cbn [bind]. apply G. rewrite map_length. apply omap2_len; [exact Lb|lia]. }
  assert (Rows : forall l, exists rows, mapM (fun i => do ziso <- isotherm age (nth i temps 0); nan_grav1d (x0 :: xs) (map (fun o => osub o (Some dz_c)) (map2 osub (map2 osub dep sed) ziso)) (nth (i + 3) drho 0)) l = Ok rows).
  { induction l as [|i l [rows IH]]; [exists []; reflexivity|]. cbn [mapM]. destruct (Row i) as (row & -> & _). cbn [bind]. rewrite IH. cbn [bind]. eexists. reflexivity. }
  destruct (G dep (nth 0 drho 0) Ld) as (w & Ew & Lw). destruct (G (map2 osub dep sed) (nth 1 drho 0) Lb) as (s & Es & Lsx).
  destruct (G (map (fun o => osub o (Some dz_c)) (map2 osub dep sed)) (nth 2 drho 0) ltac:(rewrite map_length; exact Lb)) as (c & Ec & Lc).
  assert (LM : length (map2 osub (map2 osub (map2 osub faa w) s) c) = n) by (repeat apply omap2_len; assumption).
  assert (Base : forall e, (e = dep \/ e = sed) -> nth j e None = None -> nth j (map2 osub dep sed) None = None).
  { intros e He E. rewrite (omap2_nth _ _ n) by assumption. destruct He as [-> | ->]; rewrite E; [apply osub_none_l|apply osub_none_r]. }
  assert (Both : nth j (map2 osub dep sed) None = None -> rmba (x0 :: xs) faa dep sed age = Ok (repeat None n, repeat None n)).
  { intros B. unfold rmba. rewrite Ew. cbn [bind]. rewrite (N _ _ Lb B). cbn [bind]. rewrite Ec. cbn [bind]. destruct (Rows (seq 0 (length temps - 1))) as (rows & ->). cbn [bind].
    rewrite map2_none_r by (apply omap2_len; assumption). rewrite map2_none_l by exact Lc. rewrite map2_none_l by (rewrite map_length, seq_length; exact Lx). reflexivity. }
  split; [intros E; apply Both, (Base dep); auto|]. split; [intros E; apply Both, (Base sed); auto|].
  intros H. exists (map2 osub (map2 osub (map2 osub faa w) s) c). split; [exact LM|]. unfold rmba. rewrite Ew. cbn [bind]. rewrite Es. cbn [bind]. rewrite Ec. cbn [bind].
  assert (L27 : (length temps - 1 = 27)%nat) by (unfold temps; rewrite map_length, seq_length; reflexivity). rewrite L27. change (seq 0 27) with (0%nat :: seq 1 26). cbn [mapM].
  destruct (isotherm_total age (nth 0 temps 0)) as (z & -> & Lz & Nz). cbn [bind].
  rewrite N; [|rewrite map_length; apply omap2_len; [exact Lb|lia]|].
  2:{ rewrite (nth_map _ _ _ _ _ _ None) by (rewrite (omap2_len _ _ n Lb) by lia; exact Hj). rewrite (omap2_nth _ _ n) by (assumption || lia). rewrite Nz by (lia || exact H). rewrite osub_none_r. reflexivity. }
  cbn [bind]. destruct (Rows (seq 1 26)) as (rows & ->). cbn [bind]. do 2 f_equal.
  rewrite <- (map2_none_r _ _ LM) at 1. f_equal. rewrite Lx. apply (list_eq_nth _ _ _ None); [rewrite map_length, seq_length, repeat_length; reflexivity|]. intros i Hi. rewrite map_length, seq_length in Hi.
  rewrite nth_map_seq by exact Hi. rewrite !nth_repeat_lt by exact Hi. cbn [map fold_left]. rewrite nth_repeat_lt by exact Hi. apply fold_oadd_none.
Qed.
Print Assumptions C88_missing.
Example C88_case : rmba [0; 1; 2; 3] [Some 7; Some 8; Some 9; Some 1] (map Some (repeat (-3000) 4)) (map Some (repeat 100 4)) (map Some (repeat 5 4)) = Ok ([Some 7; Some 8; Some 9; Some 1], [Some 7; Some 8; Some 9; Some 1]) /\
  exists M, rmba [0; 1; 2; 3] [Some 7; Some 8; Some 9; Some 1] (map Some (repeat (-3000) 4)) (map Some (repeat 100 4)) [Some 5; Some 5; Some (-1); Some 5] = Ok (M, [None; None; None; None]).
Proof.
  split; [apply (C88_flat 0 [1; 2; 3] [7; 8; 9; 1] (-3000) 100 5 4); cbn; lia || lra || reflexivity|].
  destruct (proj2 (proj2 (C88_missing 0 [1; 2; 3] [Some 7; Some 8; Some 9; Some 1] (map Some (repeat (-3000) 4)) (map Some (repeat 100 4)) [Some 5; Some 5; Some (-1); Some 5] 4 2
    eq_refl ltac:(lia) ltac:(cbn; lra) eq_refl eq_refl eq_refl eq_refl ltac:(lia)))) as (M & _ & E); [right; exists (-1); split; [reflexivity|lra]|]. exists M. exact E.
Qed.

(** ** C89: even spacing *)
Lemma linspace_nth X n j : (j < n)%nat -> nth j (linspace X n) 0 = INR j * (X / INR (n - 1)).
Proof. intros H. unfold linspace. rewrite nth_map_seq by exact H. reflexivity. Qed.
Lemma inr999 : INR (1000 - 1) = 999.
Proof. change (1000 - 1)%nat with (Z.to_nat 999). rewrite INR_IZR_INZ, Z2Nat.id by lia. reflexivity. Qed.
Lemma xobs_range xpts j : ascending xpts -> (2 <= length xpts)%nat -> nth 0 xpts 0 = 0 -> (j < 1000)%nat -> 0 <= nth j (line_xobs xpts) 0 <= last xpts 0.
Proof.
  intros A L Z0 Hj. assert (P : 0 < last xpts 0) by (rewrite last_nth; pose proof (A 0%nat (length xpts - 1)%nat ltac:(lia)); lra). unfold line_xobs. rewrite linspace_nth by exact Hj. rewrite inr999.
  assert (B : 0 <= INR j <= 999) by (split; [apply pos_INR|rewrite <- inr999; apply le_INR; lia]). set (X := last xpts 0) in *.
  split; [apply Rmult_le_pos; lra|replace X with (999 * (X / 999)) at 2 by lra; apply Rmult_le_compat_r; lra].
Qed.
Lemma ascending_tl a xs : ascending (a :: xs) -> ascending xs.
Proof. intros A i j H. apply (A (S i) (S j)). cbn. lia. Qed.
Lemma by_distance_sorted xs ys : ascending xs -> by_distance xs ys = combine xs ys.
Proof.
  revert ys. induction xs as [|a xs IH]; intros ys A; [reflexivity|]. destruct ys as [|y ys]; [reflexivity|]. unfold by_distance in *. cbn [combine fold_right].
  rewrite IH by (apply ascending_tl with a; exact A). destruct xs as [|b xs]; [reflexivity|]. destruct ys as [|z ys]; [reflexivity|]. cbn [combine insert_at fst].
  destruct (Rle_dec a b) as [_|N]; [reflexivity|]. pose proof (A 0%nat 1%nat ltac:(cbn; lia)) as H. cbn in H. lra.
Qed.
Lemma fst_combine (A B : Type) (l : list A) (m : list B) : length m = length l -> map fst (combine l m) = l.
Proof. revert m. induction l as [|a l IH]; intros [|b m] H; try discriminate; [reflexivity|]. cbn. f_equal. apply IH. cbn in H. lia. Qed.
Lemma snd_combine (A B : Type) (l : list A) (m : list B) : length m = length l -> map snd (combine l m) = m.
Proof. revert m. induction l as [|a l IH]; intros [|b m] H; try discriminate; [reflexivity|]. cbn. f_equal. apply IH. cbn in H. lia. Qed.
Lemma resample_ok xpts ys : ascending xpts -> (2 <= length xpts)%nat -> nth 0 xpts 0 = 0 -> length ys = length xpts -> resample xpts ys = Ok (map (np_interp xpts ys) (line_xobs xpts)).
Proof.
  intros A L Z0 Ly. unfold resample. rewrite by_distance_sorted, fst_combine, snd_combine by assumption. rewrite Ly, Nat.eqb_refl. cbn [negb]. cbv zeta. destruct (existsb _ _) eqn:E; [|reflexivity]. exfalso. apply existsb_exists in E. destruct E as (x & I & E).
  apply In_nth with (d := 0) in I. destruct I as (j & Hj & <-). assert (Lo : length (line_xobs xpts) = 1000%nat) by (unfold line_xobs, linspace; rewrite map_length, seq_length; reflexivity). rewrite Lo in Hj.
  pose proof (xobs_range xpts j A L Z0 Hj). destruct (Rlt_dec _ (nth 0 xpts 0)); [lra|]. destruct (Rlt_dec (last xpts 0) _); [lra|discriminate].
Qed.

Lemma ascending_ordered xs : ascending xs -> S_Coh.ordered xs.
Proof. intros A a b H. destruct (Nat.eq_dec a b) as [->|N]; [right; reflexivity|left; apply A; lia]. Qed.
Lemma np_interp_knot xs ys k : ascending xs -> length ys = length xs -> (k < length xs)%nat -> np_interp xs ys (nth k xs 0) = nth k ys None.
Proof.
  intros A L H. rewrite (P_Coh.np_interp_at xs ys _ k L (ascending_ordered _ A) H); [|right; reflexivity|intros H'; apply A; lia].
  destruct (S k =? length xs)%nat; [reflexivity|]. destruct (Req_EM_T _ _) as [_|N]; [reflexivity|contradiction N; reflexivity].
Qed.
Lemma np_interp_inside xs ys t k : ascending xs -> length ys = length xs -> (S k < length xs)%nat -> nth k xs 0 < t < nth (S k) xs 0 ->
  np_interp xs ys t = match nth k ys None, nth (S k) ys None with
                      | Some a, Some b => Some ((b - a) / (nth (S k) xs 0 - nth k xs 0) * (t - nth k xs 0) + a)
                      | _, _ => None end.
Proof.
  intros A L H [H1 H2]. rewrite (P_Coh.np_interp_at xs ys _ k L (ascending_ordered _ A)); [|lia|lra|intros _; exact H2].
  destruct (Nat.eqb_spec (S k) (length xs)); [lia|]. destruct (Req_EM_T _ _) as [N|_]; [lra|reflexivity].
Qed.
(** Every place on the line is a tracked distance or between two. *)
Lemma knot_or_inside xs t : ascending xs -> (2 <= length xs)%nat -> nth 0 xs 0 <= t <= last xs 0 ->
  exists k, bracket xs t k /\ (t = nth k xs 0 \/ t = nth (S k) xs 0 \/ nth k xs 0 < t < nth (S k) xs 0).
Proof.
  intros A L [H1 H2]. exists (interp_index xs t - 1)%nat. pose proof (bracket_exists xs t A L) as B. split; [exact B|]. set (k := (interp_index xs t - 1)%nat) in *. destruct B as (Hk & B1 & B2). rewrite last_nth in H2.
  assert (C1 : nth k xs 0 <= t) by (destruct B1 as [->|B1]; [exact H1|lra]).
  assert (C2 : t <= nth (S k) xs 0) by (destruct B2 as [E|B2]; [replace (S k) with (length xs - 1)%nat by lia; exact H2|exact B2]).
  destruct C1 as [C1|C1]; [|left; symmetry; exact C1]. destruct C2 as [C2|C2]; [|right; left; exact C2]. right. right. split; assumption.
Qed.
(** A thousand values at equal steps from the first to the last position: at a tracked distance the tracked value, elsewhere on the straight
    line between the tracked values around it. *)
Theorem C89_resampled : forall xpts ys, ascending xpts -> (2 <= length xpts)%nat -> nth 0 xpts 0 = 0 -> length ys = length xpts ->
  exists r, resample xpts ys = Ok r /\ length r = 1000%nat /\ length (line_xobs xpts) = 1000%nat /\
    (forall j, (j < 1000)%nat -> nth j (line_xobs xpts) 0 = INR j * last xpts 0 / 999) /\
    (forall j, (j < 1000)%nat -> exists k, (S k < length xpts)%nat /\ (nth j (line_xobs xpts) 0 = nth k xpts 0 \/ nth j (line_xobs xpts) 0 = nth (S k) xpts 0 \/
       nth k xpts 0 < nth j (line_xobs xpts) 0 < nth (S k) xpts 0)) /\
    (forall j k, (j < 1000)%nat -> (k < length xpts)%nat -> nth j (line_xobs xpts) 0 = nth k xpts 0 -> nth j r None = nth k ys None) /\
    (forall j k a b, (j < 1000)%nat -> (S k < length xpts)%nat -> nth k xpts 0 < nth j (line_xobs xpts) 0 < nth (S k) xpts 0 -> nth k ys None = Some a -> nth (S k) ys None = Some b ->
       exists v, nth j r None = Some v /\ on_line (nth k xpts 0) a (nth (S k) xpts 0) b (nth j (line_xobs xpts) 0) v) /\
    (forall j k, (j < 1000)%nat -> (S k < length xpts)%nat -> nth k xpts 0 < nth j (line_xobs xpts) 0 < nth (S k) xpts 0 -> nth k ys None = None \/ nth (S k) ys None = None -> nth j r None = None).
Proof.
  intros xpts ys A L Z0 Ly. eexists. split; [apply resample_ok; assumption|]. assert (Lo : length (line_xobs xpts) = 1000%nat) by (unfold line_xobs, linspace; rewrite map_length, seq_length; reflexivity).
  split; [rewrite map_length; exact Lo|]. split; [exact Lo|]. split; [intros j Hj; unfold line_xobs; rewrite linspace_nth by exact Hj; rewrite inr999; field|].
  split; [|split; [|split]].
  - intros j Hj. destruct (knot_or_inside xpts (nth j (line_xobs xpts) 0) A L) as (k & (Hk & _) & H); [|exists k; split; [exact Hk|exact H]]. rewrite Z0. apply xobs_range; assumption.
  - intros j k Hj Hk E. rewrite (nth_map _ _ _ _ _ _ 0) by (rewrite Lo; exact Hj). rewrite E. apply np_interp_knot; assumption.
  - intros j k a b Hj Hk B Ea Eb. rewrite (nth_map _ _ _ _ _ _ 0) by (rewrite Lo; exact Hj). rewrite (np_interp_inside xpts ys _ k A Ly Hk B), Ea, Eb. eexists. split; [reflexivity|].
    unfold on_line. field. lra.
  - intros j k Hj Hk B H. rewrite (nth_map _ _ _ _ _ _ 0) by (rewrite Lo; exact Hj). rewrite (np_interp_inside xpts ys _ k A Ly Hk B). destruct H as [-> | ->]; [reflexivity|]. destruct (nth k ys None); reflexivity.
Qed.
Print Assumptions C89_resampled.

(** ** Distances in any order *)
Lemma insert_at_perm p l : Permutation (insert_at p l) (p :: l).
Proof. induction l as [|q r IH]; [reflexivity|]. cbn. destruct (Rle_dec _ _); [reflexivity|]. rewrite IH. apply perm_swap. Qed.
Lemma by_distance_perm xs ys : Permutation (by_distance xs ys) (combine xs ys).
Proof. unfold by_distance. induction (combine xs ys) as [|p l IH]; [reflexivity|]. cbn [fold_right]. rewrite insert_at_perm. constructor. exact IH. Qed.
Definition nearer (p q : R * option R) : Prop := fst p <= fst q.
Lemma insert_at_order p l : StronglySorted nearer l -> StronglySorted nearer (insert_at p l).
Proof.
  induction l as [|q r IH]; intros H; [repeat constructor|]. cbn. inversion H as [|? ? H1 H2]; subst. destruct (Rle_dec (fst p) (fst q)) as [C|C].
  - constructor; [exact H|]. constructor; [exact C|]. eapply Forall_impl; [|exact H2]. intros z Hz. unfold nearer in *. lra.
  - constructor; [apply IH; exact H1|]. apply Forall_forall. intros z Hz. apply (Permutation_in _ (insert_at_perm p r)) in Hz. destruct Hz as [<-|Hz]; [unfold nearer; lra|]. rewrite Forall_forall in H2. apply H2. exact Hz.
Qed.
Lemma by_distance_order xs ys : StronglySorted nearer (by_distance xs ys).
Proof. unfold by_distance. induction (combine xs ys) as [|p l IH]; [constructor|]. apply insert_at_order. exact IH. Qed.
Lemma sorted_ordered l : StronglySorted nearer l -> S_Coh.ordered (map fst l).
Proof.
  induction 1 as [|p l H IH F]; intros a b Hab; [cbn in Hab; lia|]. destruct b as [|b].
  - assert (a = 0)%nat as -> by lia. right. reflexivity.
  - destruct a as [|a]; [|apply IH; cbn in Hab; lia]. cbn [map nth]. cbn [map length] in Hab.
    assert (I : In (nth b (map fst l) 0) (map fst l)) by (apply nth_In; lia). apply in_map_iff in I. destruct I as (q & <- & I). rewrite Forall_forall in F. apply (F q I).
Qed.
Lemma by_distance_length xs ys : length ys = length xs -> length (by_distance xs ys) = length xs.
Proof. intros L. rewrite (Permutation_length (by_distance_perm xs ys)), combine_length. lia. Qed.
Lemma by_distance_in xs ys x : length ys = length xs -> In x (map fst (by_distance xs ys)) <-> In x xs.
Proof.
  intros L. assert (P : Permutation (map fst (by_distance xs ys)) xs) by (rewrite (Permutation_map fst (by_distance_perm xs ys)), fst_combine by exact L; reflexivity).
  split; intros H; [apply (Permutation_in _ P H)|apply (Permutation_in _ (Permutation_sym P) H)].
Qed.
Lemma ordered_ends l x : S_Coh.ordered l -> In x l -> nth 0 l 0 <= x <= last l 0.
Proof. intros O I. apply In_nth with (d := 0) in I. destruct I as (k & Hk & <-). rewrite last_nth. split; apply O; lia. Qed.
Lemma positions_between xpts x j : (j < 1000)%nat -> x = nth j (line_xobs xpts) 0 -> Rmin 0 (last xpts 0) <= x <= Rmax 0 (last xpts 0).
Proof.
  intros Hj ->. unfold line_xobs. rewrite linspace_nth by exact Hj. rewrite inr999. set (X := last xpts 0).
  assert (B : 0 <= INR j <= 999) by (split; [apply pos_INR|rewrite <- inr999; apply le_INR; lia]). set (c := INR j) in *. unfold Rmin, Rmax. destruct (Rle_dec 0 X); split; nra.
Qed.
(** A series of another length, or a line with all its distances above or all below zero, is refused; nothing else is. *)
Theorem C89_outside : forall xpts ys, xpts <> [] ->
  (resample xpts ys = Raise ValueError <-> length ys <> length xpts \/ (forall x, In x xpts -> 0 < x) \/ (forall x, In x xpts -> x < 0)) /\
  forall e, resample xpts ys = Raise e -> e = ValueError.
Proof.
  intros xpts ys Hn. unfold resample. destruct (Nat.eqb_spec (length ys) (length xpts)) as [L|L]; cbn [negb]; [|split; [split; intros; [left; exact L|reflexivity]|intros e H; congruence]]. cbv zeta.
  set (xs := map fst (by_distance xpts ys)). assert (In_xs : forall x, In x xs <-> In x xpts) by (intros x; apply by_distance_in; exact L). assert (O : S_Coh.ordered xs) by (apply sorted_ordered, by_distance_order).
  assert (Lx : length xs = length xpts) by (unfold xs; rewrite map_length; apply by_distance_length; exact L). assert (Hp : (0 < length xpts)%nat) by (destruct xpts; [contradiction Hn; reflexivity|cbn; lia]).
  set (a := nth 0 xs 0). set (X := last xs 0). assert (Ia : In a xpts) by (apply In_xs, nth_In; lia). assert (IX : In X xpts) by (apply In_xs; unfold X; rewrite last_nth; apply nth_In; lia).
  assert (Il : In (last xpts 0) xpts) by (rewrite last_nth; apply nth_In; lia). pose proof (ordered_ends xs (last xpts 0) O (proj2 (In_xs _) Il)) as Hl. fold a X in Hl.
  assert (Lo : length (line_xobs xpts) = 1000%nat) by (unfold line_xobs, linspace; rewrite map_length, seq_length; reflexivity).
  assert (X0 : nth 0 (line_xobs xpts) 0 = 0) by (unfold line_xobs; rewrite linspace_nth by lia; cbn [INR]; lra).
  destruct (existsb _ _) eqn:E; (split; [split|]); try discriminate; try reflexivity; try (intros e H; congruence).
  - intros _. right. apply existsb_exists in E. destruct E as (x & I & E). apply In_nth with (d := 0) in I. destruct I as (j & Hj & Ex). rewrite Lo in Hj. pose proof (positions_between xpts x j Hj (eq_sym Ex)) as Hx.
    destruct (Rlt_dec 0 a) as [Pa|Na]; [left; intros z Hz; pose proof (ordered_ends xs z O (proj2 (In_xs z) Hz)) as Q; fold a X in Q; lra|].
    destruct (Rlt_dec X 0) as [PX|NX]; [right; intros z Hz; pose proof (ordered_ends xs z O (proj2 (In_xs z) Hz)) as Q; fold a X in Q; lra|]. exfalso.
    unfold Rmin, Rmax in Hx. destruct (Rle_dec 0 (last xpts 0)); destruct (Rlt_dec x a); try lra; destruct (Rlt_dec X x); try lra; discriminate.
  - intros [H|H]; [contradiction|]. exfalso. assert (F : a <= 0 <= X).
    { assert (I : In 0 (line_xobs xpts)) by (rewrite <- X0; apply nth_In; rewrite Lo; lia). assert (N : ~ exists x, In x (line_xobs xpts) /\ (if Rlt_dec x a then true else if Rlt_dec X x then true else false) = true) by (intros N; apply (proj2 (existsb_exists _ _)) in N; congruence).
      split; apply Rnot_lt_le; intros C; apply N; eexists; (split; [exact I|]); destruct (Rlt_dec _ a); try reflexivity; destruct (Rlt_dec X _); try reflexivity; lra. }
    destruct H as [H|H]; [specialize (H a Ia)|specialize (H X IX)]; lra.
Qed.
Print Assumptions C89_outside.
Example C89_outside_case : resample [1; 2; 3] [Some 5; Some 7; Some 9] = Raise ValueError /\ resample [0; 3; 2] [Some 5; Some 7; Some 9] <> Raise ValueError /\ resample [0; 3; 2] [Some 5] = Raise ValueError.
Proof.
  split; [apply C89_outside; [discriminate|]; right; left; intros x [<-|[<-|[<-|[]]]]; lra|]. split; [|apply C89_outside; [discriminate|]; left; discriminate].
  intros H. apply (proj1 (proj1 (C89_outside [0; 3; 2] [Some 5; Some 7; Some 9] ltac:(discriminate)))) in H. destruct H as [H|[H|H]]; [contradiction H; reflexivity|specialize (H 0 (or_introl eq_refl)); lra|specialize (H 0 (or_introl eq_refl)); lra].
Qed.
(** The order of the distances does not matter: the neighbours of a position are the nearest distances on its two sides, wherever they are along the line. *)
Theorem C89_any_order : forall xpts ys, NoDup xpts -> In 0 xpts -> length ys = length xpts ->
  exists r, resample xpts ys = Ok r /\ length r = 1000%nat /\
    (forall j i, (j < 1000)%nat -> (i < length xpts)%nat -> INR j * last xpts 0 / 999 = nth i xpts 0 -> nth j r None = nth i ys None) /\
    forall j i k, (j < 1000)%nat -> (i < length xpts)%nat -> (k < length xpts)%nat -> nth i xpts 0 < INR j * last xpts 0 / 999 < nth k xpts 0 ->
      (forall x, In x xpts -> ~ nth i xpts 0 < x < nth k xpts 0) ->
      match nth i ys None, nth k ys None with
      | Some a, Some b => exists v, nth j r None = Some v /\ on_line (nth i xpts 0) a (nth k xpts 0) b (INR j * last xpts 0 / 999) v
      | _, _ => nth j r None = None
      end.
Proof.
  intros xpts ys ND I0 L. destruct (resample xpts ys) as [r|e] eqn:E.
  2: { assert (Hn : xpts <> []) by (intros ->; destruct I0). pose proof (proj2 (C89_outside xpts ys Hn) e E) as ->. apply (proj1 (proj1 (C89_outside xpts ys Hn))) in E. destruct E as [E|[E|E]]; [contradiction|specialize (E 0 I0); lra|specialize (E 0 I0); lra]. }
  exists r. split; [reflexivity|]. unfold resample in E. rewrite L, Nat.eqb_refl in E. cbn [negb] in E. cbv zeta in E.
  set (s := by_distance xpts ys) in *. set (xs := map fst s) in *. set (vs := map snd s) in *. destruct (existsb _ _); [discriminate|]. assert (r = map (np_interp xs vs) (line_xobs xpts)) by congruence. subst r. clear E.
  assert (Lo : length (line_xobs xpts) = 1000%nat) by (unfold line_xobs, linspace; rewrite map_length, seq_length; reflexivity). split; [rewrite map_length; exact Lo|].
  assert (Xj : forall j, (j < 1000)%nat -> nth j (line_xobs xpts) 0 = INR j * last xpts 0 / 999) by (intros j Hj; unfold line_xobs; rewrite linspace_nth by exact Hj; rewrite inr999; field).
  assert (O : S_Coh.ordered xs) by (apply sorted_ordered, by_distance_order). assert (Ls : length s = length xpts) by (apply by_distance_length; exact L).
  assert (NDs : NoDup xs) by (apply (Permutation_NoDup (l := map fst (combine xpts ys))); [apply Permutation_map, Permutation_sym, by_distance_perm|rewrite fst_combine by exact L; exact ND]).
  assert (A : ascending xs).
  { intros p q Hpq. destruct (O p q ltac:(lia)) as [H|H]; [exact H|]. exfalso. pose proof (proj1 (NoDup_nth xs 0) NDs p q ltac:(lia) ltac:(lia) H). lia. }
  assert (Lx : length xs = length xpts) by (unfold xs; rewrite map_length; exact Ls). assert (Lv : length vs = length xs) by (unfold vs, xs; rewrite !map_length; reflexivity).
  assert (At : forall i, (i < length xpts)%nat -> exists p, (p < length xs)%nat /\ nth p xs 0 = nth i xpts 0 /\ nth p vs None = nth i ys None).
  { intros i Hi. assert (I : In (nth i xpts 0, nth i ys None) s).
    { apply (Permutation_in _ (Permutation_sym (by_distance_perm xpts ys))). rewrite <- combine_nth by (symmetry; exact L). apply nth_In. rewrite combine_length. lia. }
    apply In_nth with (d := (0, None)) in I. destruct I as (p & Hp & Ep). exists p. split; [unfold xs; rewrite map_length; exact Hp|]. unfold xs, vs.
    change 0 with (fst (0, @None R)) at 1. rewrite (map_nth fst). change (@None R) with (snd (0, @None R)) at 2. rewrite (map_nth snd), Ep. split; reflexivity. }
  split.
  - intros j i Hj Hi Et. rewrite (nth_map _ _ _ _ _ _ 0) by (rewrite Lo; exact Hj). rewrite Xj, Et by exact Hj. destruct (At i Hi) as (p & Hp & <- & <-). apply np_interp_knot; assumption.
  - intros j i k Hj Hi Hk Ht Hb. rewrite (nth_map _ _ _ _ _ _ 0) by (rewrite Lo; exact Hj). rewrite Xj by exact Hj. destruct (At i Hi) as (p & Hp & Ep & Vp). destruct (At k Hk) as (q & Hq & Eq & Vq).
    rewrite <- Ep, <- Eq in Ht, Hb |- *. rewrite <- Vp, <- Vq.
    assert (Hpq : (p < q)%nat) by (destruct (Nat.lt_ge_cases p q) as [?|C]; [assumption|]; pose proof (O q p ltac:(lia)); lra).
    assert (q = S p).
    { destruct (Nat.eq_dec q (S p)) as [?|N]; [assumption|]. exfalso. apply (Hb (nth (S p) xs 0)); [apply (by_distance_in xpts ys _ L); apply nth_In; fold s xs; lia|]. split; apply A; lia. }
    subst q. rewrite (np_interp_inside xs vs _ p A Lv Hq Ht). destruct (nth p vs None) as [u|]; [|reflexivity]. destruct (nth (S p) vs None) as [w|]; [|reflexivity].
    eexists. split; [reflexivity|]. unfold on_line. field. lra.
Qed.
Print Assumptions C89_any_order.
(** Every position is one of the distances or between two neighbours. *)
Lemma distance_or_neighbours xpts j : NoDup xpts -> (2 <= length xpts)%nat -> In 0 xpts -> (j < 1000)%nat -> let t := INR j * last xpts 0 / 999 in
  (exists i, (i < length xpts)%nat /\ t = nth i xpts 0) \/
  exists i k, (i < length xpts)%nat /\ (k < length xpts)%nat /\ nth i xpts 0 < t < nth k xpts 0 /\ forall x, In x xpts -> ~ nth i xpts 0 < x < nth k xpts 0.
Proof.
  intros ND L2 I0 Hj t. set (ys := repeat (@None R) (length xpts)). assert (L : length ys = length xpts) by apply repeat_length. set (xs := map fst (by_distance xpts ys)).
  assert (O : S_Coh.ordered xs) by (apply sorted_ordered, by_distance_order). assert (Lx : length xs = length xpts) by (unfold xs; rewrite map_length; apply by_distance_length; exact L).
  assert (NDs : NoDup xs) by (apply (Permutation_NoDup (l := map fst (combine xpts ys))); [apply Permutation_map, Permutation_sym, by_distance_perm|rewrite fst_combine by exact L; exact ND]).
  assert (A : ascending xs).
  { intros p q Hpq. destruct (O p q ltac:(lia)) as [H|H]; [exact H|]. exfalso. pose proof (proj1 (NoDup_nth xs 0) NDs p q ltac:(lia) ltac:(lia) H). lia. }
  assert (In_xs : forall x, In x xs <-> In x xpts) by (intros x; apply by_distance_in; exact L).
  assert (Il : In (last xpts 0) xpts) by (rewrite last_nth; apply nth_In; lia).
  pose proof (ordered_ends xs (last xpts 0) O (proj2 (In_xs _) Il)) as Hl. pose proof (ordered_ends xs 0 O (proj2 (In_xs _) I0)) as H0.
  assert (Et : t = nth j (line_xobs xpts) 0) by (unfold t, line_xobs; rewrite linspace_nth by exact Hj; rewrite inr999; field).
  pose proof (positions_between xpts t j Hj Et) as Ht. assert (Hr : nth 0 xs 0 <= t <= last xs 0) by (unfold Rmin, Rmax in Ht; destruct (Rle_dec 0 (last xpts 0)); lra).
  assert (Back : forall p, (p < length xs)%nat -> exists i, (i < length xpts)%nat /\ nth i xpts 0 = nth p xs 0) by (intros p Hp; apply In_nth; apply In_xs, nth_In; exact Hp).
  destruct (knot_or_inside xs t A ltac:(lia) Hr) as (p & (Hp & _) & [E|[E|B]]).
  - left. destruct (Back p ltac:(lia)) as (i & Hi & Ei). exists i. split; [exact Hi|congruence].
  - left. destruct (Back (S p) Hp) as (i & Hi & Ei). exists i. split; [exact Hi|congruence].
  - right. destruct (Back p ltac:(lia)) as (i & Hi & Ei). destruct (Back (S p) Hp) as (k & Hk & Ek). exists i, k. rewrite Ei, Ek. repeat (split; [assumption || apply B|]).
    intros x Ix Hx. apply In_xs in Ix. apply In_nth with (d := 0) in Ix. destruct Ix as (q & Hq & <-).
    destruct (Nat.le_gt_cases q p) as [C|C]; [pose proof (O q p ltac:(lia)); lra|]. pose proof (O (S p) q ltac:(lia)). lra.
Qed.
(** What is linear along the line stays so, and the ends keep their values. *)
Theorem C89_linear : forall xpts ys p q, NoDup xpts -> (2 <= length xpts)%nat -> In 0 xpts -> length ys = length xpts ->
  (forall k, (k < length xpts)%nat -> nth k ys None = Some (p + q * nth k xpts 0)) ->
  resample xpts ys = Ok (map (fun x => Some (p + q * x)) (line_xobs xpts)).
Proof.
  intros xpts ys p q ND L2 I0 L H. destruct (C89_any_order xpts ys ND I0 L) as (r & E & Lr & K & N). rewrite E. f_equal.
  assert (Lo : length (line_xobs xpts) = 1000%nat) by (unfold line_xobs, linspace; rewrite map_length, seq_length; reflexivity).
  apply (nth_ext _ _ None None); [rewrite map_length, Lo; exact Lr|]. intros j Hj. rewrite Lr in Hj. rewrite (nth_map _ _ _ _ _ _ 0) by (rewrite Lo; exact Hj).
  replace (nth j (line_xobs xpts) 0) with (INR j * last xpts 0 / 999) by (unfold line_xobs; rewrite linspace_nth by exact Hj; rewrite inr999; field).
  destruct (distance_or_neighbours xpts j ND L2 I0 Hj) as [(i & Hi & Ei)|(i & k & Hi & Hk & B & Nb)]; [rewrite (K j i Hj Hi Ei), Ei; apply H; exact Hi|].
  specialize (N j i k Hj Hi Hk B Nb). rewrite (H i Hi), (H k Hk) in N. destruct N as (v & -> & O). f_equal. unfold on_line in O.
  set (t := INR j * last xpts 0 / 999) in *. set (u := nth i xpts 0) in *. set (w := nth k xpts 0) in *.
  assert (Q : (v - (p + q * t)) * (w - u) = 0) by nra. apply Rmult_integral in Q. lra.
Qed.
Print Assumptions C89_linear.
Theorem C89_ends : forall xpts ys r, NoDup xpts -> nth 0 xpts 0 = 0 -> xpts <> [] -> length ys = length xpts -> resample xpts ys = Ok r ->
  nth 0 r None = nth 0 ys None /\ nth 999 r None = last ys None.
Proof.
  intros xpts ys r ND Z0 Hn Ly E. assert (L : (0 < length xpts)%nat) by (destruct xpts; [contradiction Hn; reflexivity|cbn; lia]).
  destruct (C89_any_order xpts ys ND ltac:(rewrite <- Z0; apply nth_In; exact L) Ly) as (r' & E' & _ & V & _). assert (r' = r) as -> by congruence. split.
  - apply V; [lia|exact L|]. cbn [INR]. lra.
  - rewrite (P_Coh.last_nth0 _ ys), Ly. apply V; [lia|lia|]. rewrite <- last_nth. change 999%nat with (1000 - 1)%nat. rewrite inr999. field.
Qed.
Print Assumptions C89_ends.
(** A line that turns back: the last distance is 999, the one before it 1998. *)
Example C89_any_order_case : exists r, resample [0; 1998; 999] [Some 5; Some 9; Some 2003] = Ok r /\ nth 0 r None = Some 5 /\ nth 500 r None = Some 1005 /\ nth 999 r None = Some 2003.
Proof.
  assert (ND : NoDup [0; 1998; 999]) by (repeat constructor; cbn; intros H; repeat (destruct H as [H|H]; [lra|]); exact H).
  destruct (C89_any_order [0; 1998; 999] [Some 5; Some 9; Some 2003] ND (or_introl eq_refl) eq_refl) as (r & E & _ & K & N). exists r. split; [exact E|]. cbn [last] in K, N.
  assert (I5 : INR 500 = 500) by (rewrite INR_IZR_INZ; reflexivity). assert (I9 : INR 999 = 999) by (rewrite INR_IZR_INZ; reflexivity).
  split; [apply (K 0%nat 0%nat); [lia|cbn; lia|cbn; lra]|]. split; [|apply (K 999%nat 2%nat); [lia|cbn; lia|rewrite I9; cbn; lra]].
  specialize (N 500%nat 0%nat 2%nat ltac:(lia) ltac:(cbn; lia) ltac:(cbn; lia)). rewrite I5 in N. cbn [nth] in N. destruct N as (v & -> & O); [lra|intros x [<-|[<-|[<-|[]]]]; lra|].
  f_equal. unfold on_line in O. lra.
Qed.
Example C89_case : exists r, resample [0; 1; 999] [Some 5; Some 7; Some 2003] = Ok r /\ nth 0 r None = Some 5 /\ nth 500 r None = Some 1005 /\ nth 999 r None = Some 2003.
Proof.
  assert (ND : NoDup [0; 1; 999]) by (repeat constructor; cbn; intros H; repeat (destruct H as [H|H]; [lra|]); exact H).
  assert (E : resample [0; 1; 999] [Some 5; Some 7; Some 2003] = Ok (map (fun x => Some (5 + 2 * x)) (line_xobs [0; 1; 999]))).
  { apply C89_linear; [exact ND|cbn; lia|left; reflexivity|reflexivity|]. intros k Hk. cbn [length] in Hk. destruct k as [|[|[|k]]]; try lia; cbn [nth]; f_equal; lra. }
  eexists. split; [exact E|]. assert (Lo : length (line_xobs [0; 1; 999]) = 1000%nat) by (unfold line_xobs, linspace; rewrite map_length, seq_length; reflexivity).
  assert (N : forall j, (j < 1000)%nat -> nth j (map (fun x => Some (5 + 2 * x)) (line_xobs [0; 1; 999])) None = Some (5 + 2 * INR j)).
  { intros j Hj. rewrite (nth_map _ _ _ _ _ _ 0) by (rewrite Lo; exact Hj). unfold line_xobs. rewrite linspace_nth by exact Hj. rewrite inr999. cbn [last]. do 2 f_equal. field. }
  rewrite !N by lia. split; [cbn [INR]; f_equal; lra|]. split; f_equal; [|change 999%nat with (1000 - 1)%nat; rewrite inr999; lra].
  replace (INR 500) with 500 by (change 500%nat with (Z.to_nat 500); rewrite INR_IZR_INZ, Z2Nat.id by lia; reflexivity). lra.
Qed.
(** A missing value leaves the tracked value before it at its own distance, and nothing up to the next one. *)
Example C89_missing_case : exists r, resample [0; 2; 999] [Some 5; None; Some 2003] = Ok r /\ nth 0 r None = Some 5 /\ nth 1 r None = None /\ nth 2 r None = None /\ nth 500 r None = None /\ nth 999 r None = Some 2003.
Proof.
  assert (A : ascending [0; 2; 999]) by (intros i j H; cbn [length] in H; destruct i as [|[|i]]; destruct j as [|[|[|j]]]; cbn [nth]; lia || lra).
  destruct (C89_resampled [0; 2; 999] [Some 5; None; Some 2003] A ltac:(cbn; lia) eq_refl eq_refl) as (r & E & _ & _ & X & _ & K & _ & N). exists r. split; [exact E|].
  assert (Xj : forall j, (j < 1000)%nat -> nth j (line_xobs [0; 2; 999]) 0 = INR j) by (intros j Hj; rewrite X by exact Hj; cbn [last]; field).
  assert (I5 : INR 500 = 500) by (rewrite INR_IZR_INZ; reflexivity). assert (I9 : INR 999 = 999) by (rewrite INR_IZR_INZ; reflexivity).
  split; [apply (K 0%nat 0%nat); [lia|cbn; lia|rewrite Xj by lia; reflexivity]|].
  split; [apply (N 1%nat 0%nat); [lia|cbn; lia|rewrite Xj by lia; cbn; lra|right; reflexivity]|].
  split; [apply (K 2%nat 1%nat); [lia|cbn; lia|rewrite Xj by lia; cbn; lra]|].
  split; [apply (N 500%nat 1%nat); [lia|cbn; lia|rewrite Xj by lia; rewrite I5; cbn; lra|left; reflexivity]|].
  apply (K 999%nat 2%nat); [lia|cbn; lia|rewrite Xj by lia; rewrite I9; reflexivity].
Qed.
