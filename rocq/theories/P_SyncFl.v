(** C105: times and positions in double precision. *)
From Coq Require Import List ZArith Reals Lia Lra Bool Sorted.
From Verif Require Import M_Py L_Base M_Np M_Cal S_Cal M_Corr S_Corr M_Tide S_Tide L_Tide M_Faa S_Faa L_Faa M_Float S_Round L_Round L_Float M_TideFl P_Float M_FaaFl P_FaaFl M_SyncFl S_SyncFl P_TideFl.
Import ListNotations.
Open Scope R_scope.


Lemma u64_31 : u64 * 2 ^ 31 = / 2 ^ 22.
Proof. rewrite u64_val. lra. Qed.
Lemma time_err rnd t : good_rnd rnd -> in_range t -> Rabs (rnd (sec t) - sec t) <= 2.4e-7.
Proof.
  intros [G _] H. unfold in_range in H. apply IZR_le in H. rewrite abs_IZR, mult_IZR in H. change (IZR (2 ^ 31)) with 2147483648 in H.
  assert (Hs : Rabs (sec t) <= 2147483648). { unfold sec. unfold Rdiv. rewrite Rabs_mult, (Rabs_pos_eq (/ 1000000)) by lra. lra. }
  eapply Rle_trans; [apply G|]. pose proof eta64_small as E. pose proof u64_pos.
  assert (u64 * Rabs (sec t) <= u64 * 2147483648) by (apply Rmult_le_compat_l; lra). rewrite u64_val in *. assert (/ 10 ^ 60 <= / 10 ^ 10) by (apply Rinv_le_contravar; [lra|]; apply Rle_pow; [lra|lia]). lra.
Qed.
Lemma sec_gap a b : (a < b)%Z -> sec a + 1e-6 <= sec b.
Proof. intros H. assert (IZR a + 1 <= IZR b) by (rewrite <- plus_IZR; apply IZR_le; lia). unfold sec. lra. Qed.
Lemma time_lt rnd a b : good_rnd rnd -> in_range a -> in_range b -> (a < b)%Z -> rnd (sec a) + 5.2e-7 <= rnd (sec b) /\ rnd (sec b) - rnd (sec a) <= sec b - sec a + 4.8e-7.
Proof.
  intros G Ha Hb L. pose proof (sec_gap a b L). pose proof (time_err rnd a G Ha) as Ea. pose proof (time_err rnd b G Hb) as Eb.
  apply Rabs_le_inv in Ea. apply Rabs_le_inv in Eb. lra.
Qed.
Lemma small_pow n : (0 < n)%nat -> 0 < / 10 ^ n.
Proof. intros _. apply Rinv_0_lt_compat. apply pow_lt. lra. Qed.
Lemma rnd_0 rnd : good_rnd rnd -> rnd 0 = 0.
Proof. intros [_ G]. specialize (G 0 (or_introl eq_refl)). rewrite Rabs_R0, Rmult_0_r, Rminus_0_r in G. pose proof (Rabs_pos (rnd 0)). destruct (Req_dec (rnd 0) 0) as [E|E]; [exact E|]. apply Rabs_pos_lt in E. lra. Qed.

(** One rounded interpolation against the exact one with the same times. *)
Lemma interp_core rnd h e a b : good_rnd rnd -> 5e-7 <= h <= 4.3e9 -> e = 0 \/ 5e-7 <= e -> 0 <= e <= h -> Rabs a <= 360 -> Rabs b <= 360 ->
  Rabs (rnd (rnd (rnd (rnd (b - a) / rnd h) * rnd e) + a) - (a + (b - a) * (e / h))) <= 1e-12.
Proof.
  intros G Hh He Heh Ha Hb. set (D := b - a). assert (HD : Rabs D <= 720). { unfold D. eapply Rle_trans; [apply Rabs_triang|]. rewrite Rabs_Ropp. lra. }
  assert (F : 0 <= e / h <= 1). { split; [apply Rmult_le_pos; [lra|left; apply Rinv_0_lt_compat; lra]|]. apply Rmult_le_reg_r with h; [lra|]. unfold Rdiv. rewrite Rmult_assoc, Rinv_l by lra. lra. }
  assert (B50 : / 10 ^ 50 <= 1e-50) by lra.
  pose proof u64_pos as U. pose proof u64_val as UV. pose proof eta64_small as ES. assert (E60 : / 10 ^ 60 <= 1e-40) by lra.
  assert (Rh : rel (0 + 1 + / 1000) h (rnd h)) by (apply rel_rnd; [exact G|lra|right; rewrite Rabs_pos_eq; lra|apply rel_refl]).
  assert (Re : rel (0 + 1 + / 1000) e (rnd e)) by (apply rel_rnd; [exact G|lra| |apply rel_refl]; destruct He as [->|He]; [left; reflexivity|right; rewrite Rabs_pos_eq; lra]).
  assert (Fin : forall P, Rabs (P - D * (e / h)) <= 6 * u64 * 720 -> Rabs (rnd (P + a) - (a + D * (e / h))) <= 1e-12).
  { intros P HP. assert (DE : Rabs (D * (e / h)) <= 720). { rewrite Rabs_mult, (Rabs_pos_eq (e / h)) by lra. replace 720 with (720 * 1) by ring. apply Rmult_le_compat; try lra. apply Rabs_pos. }
    assert (PA : Rabs (P + a) <= 1081). { replace (P + a) with ((P - D * (e / h)) + D * (e / h) + a) by ring. eapply Rle_trans; [apply Rabs_triang|]. eapply Rle_trans; [apply Rplus_le_compat_r; apply Rabs_triang|]. rewrite UV in HP. lra. }
    destruct G as [G _]. specialize (G (P + a)). replace (rnd (P + a) - (a + D * (e / h))) with ((rnd (P + a) - (P + a)) + (P - D * (e / h))) by ring.
    eapply Rle_trans; [apply Rabs_triang|]. assert (u64 * Rabs (P + a) <= u64 * 1081) by (apply Rmult_le_compat_l; lra). rewrite UV in *. lra. }
  apply Fin. clear Fin.
  assert (Ih : / 4.3e9 <= / h <= 2e6). { split; [apply Rinv_le_contravar; lra|]. replace 2e6 with (/ 5e-7) by lra. apply Rinv_le_contravar; lra. }
  destruct (Rle_lt_dec 1e-34 (Rabs D)) as [Big|Small].
  - assert (RA : rel (0 + 1 + / 1000) D (rnd D)) by (apply rel_rnd; [exact G|lra|right; lra|apply rel_refl]).
    assert (RS : rel 2.02 (D / h) (rnd D / rnd h)) by (eapply rel_le; [eapply rel_div; [| | |exact RA|exact Rh]; lra|lra]).
    assert (DH : 2.3e-44 <= Rabs (D / h)). { unfold Rdiv. rewrite Rabs_mult, (Rabs_pos_eq (/ h)) by lra. apply Rle_trans with (1e-34 * / 4.3e9); [lra|]. apply Rmult_le_compat; lra. }
    assert (RS' : rel 3.03 (D / h) (rnd (rnd D / rnd h))) by (eapply rel_le; [apply rel_rnd; [exact G| |right; lra|exact RS]; lra|lra]).
    assert (RP : rel 4.04 (D / h * e) (rnd (rnd D / rnd h) * rnd e)) by (eapply rel_le; [eapply rel_mult; [| |exact RS'|exact Re]; lra|lra]).
    assert (DE : D / h * e = 0 \/ / 10 ^ 50 <= Rabs (D / h * e)).
    { destruct He as [He|He]; [left; rewrite He; ring|right]. rewrite Rabs_mult, (Rabs_pos_eq e) by lra. apply Rle_trans with (2.3e-44 * 5e-7); [lra|]. apply Rmult_le_compat; lra. }
    assert (RP' : rel 6 (D / h * e) (rnd (rnd (rnd D / rnd h) * rnd e))) by (eapply rel_le; [apply rel_rnd; [exact G| |exact DE|exact RP]; lra|lra]). unfold rel in RP'. replace (D * (e / h)) with (D / h * e) by (unfold Rdiv; ring).
    eapply Rle_trans; [exact RP'|]. assert (DX : Rabs (D / h * e) <= 720). { replace (D / h * e) with (D * (e / h)) by (unfold Rdiv; ring). rewrite Rabs_mult, (Rabs_pos_eq (e / h)) by lra. replace 720 with (720 * 1) by ring. apply Rmult_le_compat; lra. }
    apply Rmult_le_compat; [apply Rmult_le_pos; lra|apply Rabs_pos| |exact DX]. apply Rmult_le_compat_r; lra.
  - destruct G as [G _].
    assert (M : forall x m, Rabs x <= m -> Rabs (rnd x) <= 2 * m + 1e-60). { intros x m Hx. specialize (G x). replace (rnd x) with ((rnd x - x) + x) by ring. eapply Rle_trans; [apply Rabs_triang|].
      assert (u64 * Rabs x <= 1 * Rabs x) by (apply Rmult_le_compat_r; [apply Rabs_pos|rewrite UV; lra]). assert (/ 10 ^ 60 = 1e-60) by lra. lra. }
    assert (MA : Rabs (rnd D) <= 3e-34). { eapply Rle_trans; [apply (M D 1e-34); lra|lra]. }
    assert (Hr : h / 2 <= rnd h). { unfold rel in Rh. rewrite (Rabs_pos_eq h) in Rh by lra. apply Rabs_le_inv in Rh. rewrite UV in Rh. lra. }
    assert (MS : Rabs (rnd (rnd D / rnd h)) <= 3e-27).
    { eapply Rle_trans; [apply (M _ (3e-34 * 4e6))|lra]. unfold Rdiv. rewrite Rabs_mult. apply Rmult_le_compat; try apply Rabs_pos; [exact MA|]. rewrite Rabs_pos_eq by (left; apply Rinv_0_lt_compat; lra).
      replace 4e6 with (/ 2.5e-7) by lra. apply Rinv_le_contravar; lra. }
    assert (Er : Rabs (rnd e) <= 9e9). { eapply Rle_trans; [apply (M e 4.3e9)|lra]. rewrite Rabs_pos_eq; lra. }
    assert (MP : Rabs (rnd (rnd (rnd D / rnd h) * rnd e)) <= 1e-16).
    { eapply Rle_trans; [apply (M _ (3e-27 * 9e9))|lra]. rewrite Rabs_mult. apply Rmult_le_compat; try apply Rabs_pos; assumption. }
    assert (ML : Rabs (D * (e / h)) <= 1e-34 * 1) by (rewrite Rabs_mult, (Rabs_pos_eq (e / h)) by lra; apply Rmult_le_compat; try lra; apply Rabs_pos).
    eapply Rle_trans; [apply Rabs_triang|]. rewrite Rabs_Ropp. rewrite UV. lra.
Qed.

Lemma sorted_nth ts i j : StronglySorted Z.lt ts -> (i < j < length ts)%nat -> (nth i ts 0 < nth j ts 0)%Z.
Proof.
  intros S. revert i j. induction S as [|a l S IH F]; intros [|i] [|j] H; cbn [length nth] in *; try lia.
  - rewrite Forall_forall in F. apply F. apply nth_In. lia.
  - apply IH. lia.
Qed.
Lemma nth_times (f : Z -> R) ts k : (k < length ts)%nat -> nth k (map f ts) 0 = f (nth k ts 0%Z).
Proof. intros H. apply nth_error_nth. rewrite nth_error_map, (nth_error_nth' ts 0%Z) by exact H. reflexivity. Qed.
Lemma stamps_ascending rnd ts : good_rnd rnd -> StronglySorted Z.lt ts -> Forall in_range ts -> ascending (map (fun t => rnd (sec t)) ts).
Proof.
  intros G S F i j H. rewrite map_length in H. rewrite !(nth_times (fun t => rnd (sec t))) by lia. rewrite Forall_forall in F.
  destruct (time_lt rnd (nth i ts 0%Z) (nth j ts 0%Z) G) as [L _]; [apply F; apply nth_In; lia|apply F; apply nth_In; lia|apply sorted_nth; assumption|]. lra.
Qed.
(** Rounding the times does not change the fixes used. *)
Lemma stamps_bracket rnd ts v k : good_rnd rnd -> StronglySorted Z.lt ts -> Forall in_range ts -> in_range v ->
  bracket (map IZR ts) (IZR v) k -> bracket (map (fun t => rnd (sec t)) ts) (rnd (sec v)) k.
Proof.
  intros G S F V (H1 & H2 & H3). unfold bracket. rewrite map_length in *. split; [exact H1|]. rewrite Forall_forall in F.
  assert (I : forall j, (j < length ts)%nat -> in_range (nth j ts 0%Z)) by (intros j Hj; apply F; apply nth_In; exact Hj).
  rewrite !(nth_times (fun t => rnd (sec t))) by lia. rewrite !(nth_times IZR) in * by lia. split.
  - destruct H2 as [H2|H2]; [left; exact H2|right]. apply lt_IZR in H2. destruct (time_lt rnd _ _ G (I k ltac:(lia)) V H2). lra.
  - destruct H3 as [H3|H3]; [left; exact H3|right]. apply le_IZR in H3. destruct (Z.eq_dec v (nth (Datatypes.S k) ts 0%Z)) as [->|N]; [lra|].
    destruct (time_lt rnd v _ G V (I (Datatypes.S k) ltac:(lia)) ltac:(lia)). lra.
Qed.

(** C105: between two fixes the computed position is on the straight line between them up to 1e-12 degrees and the way made
    in two microseconds; at the time of a fix up to 1e-12 degrees.  A position is missing exactly if one of the two is. *)
Theorem C105_position : forall rnd ts ys v k, good_rnd rnd -> StronglySorted Z.lt ts -> Forall in_range ts -> in_range v -> bracket (map IZR ts) (IZR v) k ->
  let t0 := nth k ts 0%Z in let t1 := nth (S k) ts 0%Z in
  let computed := interp1d_fl rnd (map (fun t => rnd (sec t)) ts) ys (rnd (sec v)) in
  (computed = None <-> nth k ys None = None \/ nth (S k) ys None = None) /\
  forall y0 y1, nth k ys None = Some y0 -> nth (S k) ys None = Some y1 -> Rabs y0 <= 360 -> Rabs y1 <= 360 -> (t0 <= v <= t1)%Z ->
    exists p, computed = Some p /\ forall q, on_line (IZR t0) y0 (IZR t1) y1 (IZR v) q ->
      Rabs (p - q) <= 1e-12 + Rabs (y1 - y0) * (2 / IZR (t1 - t0)) /\ (v = t0 \/ v = t1 -> Rabs (p - q) <= 1e-12).
Proof.
  intros rnd ts ys v k G S F V B t0 t1 computed. pose proof (stamps_ascending rnd ts G S F) as A. pose proof (stamps_bracket rnd ts v k G S F V B) as B'.
  assert (E : computed = match nth k ys None, nth (Datatypes.S k) ys None with
    | Some a, Some b => Some (rnd (rnd (rnd (rnd (b - a) / rnd (rnd (sec t1) - rnd (sec t0))) * rnd (rnd (sec v) - rnd (sec t0))) + a)) | _, _ => None end).
  { unfold computed, interp1d_fl. rewrite (bracket_index _ _ _ A B'). replace (Datatypes.S k - 1)%nat with k by lia. destruct B as [L _]. rewrite map_length in L.
    rewrite !(nth_times (fun t => rnd (sec t))) by lia. reflexivity. }
  split.
  - rewrite E. destruct (nth k ys None); [|tauto]. destruct (nth (Datatypes.S k) ys None); [|tauto]. split; [discriminate|]. intros [H|H]; discriminate.
  - intros y0 y1 E0 E1 M0 M1 Hv. rewrite E, E0, E1. eexists. split; [reflexivity|]. intros q Hq.
    destruct B as [L _]. rewrite map_length in L. assert (L01 : (t0 < t1)%Z) by (apply sorted_nth; [exact S|lia]).
    assert (R0 : in_range t0) by (rewrite Forall_forall in F; apply F; apply nth_In; lia). assert (R1 : in_range t1) by (rewrite Forall_forall in F; apply F; apply nth_In; lia).
    destruct (time_lt rnd t0 t1 G R0 R1 L01) as [T1 T2]. pose proof (sec_gap t0 t1 L01) as T3.
    pose proof (time_err rnd t0 G R0) as D0. pose proof (time_err rnd t1 G R1) as D1. pose proof (time_err rnd v G V) as Dv. apply Rabs_le_inv in D0. apply Rabs_le_inv in D1. apply Rabs_le_inv in Dv.
    set (h := rnd (sec t1) - rnd (sec t0)) in *. set (e := rnd (sec v) - rnd (sec t0)) in *.
    assert (Bt : Rabs (sec t0) <= 2147483648 /\ Rabs (sec t1) <= 2147483648).
    { assert (X : forall t, in_range t -> Rabs (sec t) <= 2147483648).
      { intros t H. unfold in_range in H. apply IZR_le in H. rewrite abs_IZR, mult_IZR in H. change (IZR (2 ^ 31)) with 2147483648 in H.
        unfold sec. unfold Rdiv. rewrite Rabs_mult, (Rabs_pos_eq (/ 1000000)) by lra. lra. }
      split; apply X; assumption. }
    destruct Bt as [Bt0 Bt1]. apply Rabs_le_inv in Bt0. apply Rabs_le_inv in Bt1.
    assert (Hh : 5e-7 <= h <= 4.3e9) by (unfold h; lra).
    assert (He : (e = 0 /\ v = t0) \/ 5e-7 <= e).
    { destruct (Z.eq_dec v t0) as [Ev|N]; [left; split; [unfold e; rewrite Ev; ring|exact Ev]|right]. destruct (time_lt rnd t0 v G R0 V ltac:(lia)). unfold e. lra. }
    assert (Heh : 0 <= e <= h).
    { split; [lra|]. unfold e, h. destruct (Z.eq_dec v t1) as [->|N]; [lra|]. destruct (time_lt rnd v t1 G V R1 ltac:(lia)). lra. }
    pose proof (interp_core rnd h e y0 y1 G Hh ltac:(destruct He as [[He _]|He]; [left|right]; exact He) Heh M0 M1) as C.
    set (P := rnd (rnd (rnd (rnd (y1 - y0) / rnd h) * rnd e) + y0)) in *.
    assert (Qv : q = y0 + (y1 - y0) * ((sec v - sec t0) / (sec t1 - sec t0))).
    { unfold on_line in Hq. assert (IZR t0 < IZR t1) by (apply IZR_lt; exact L01). apply (Rmult_eq_reg_r (IZR t1 - IZR t0)); [|lra]. unfold sec.
      replace ((y0 + (y1 - y0) * ((IZR v / 1000000 - IZR t0 / 1000000) / (IZR t1 / 1000000 - IZR t0 / 1000000))) * (IZR t1 - IZR t0)) with (y0 * (IZR t1 - IZR t0) + (IZR v - IZR t0) * (y1 - y0)) by (field; lra). lra. }
    set (H := sec t1 - sec t0) in *. set (X := sec v - sec t0) in *.
    assert (HX : 0 <= X <= H). { destruct Hv as [Hv1 Hv2]. apply IZR_le in Hv1. apply IZR_le in Hv2. unfold X, H, sec. lra. }
    assert (SP : P - q = (P - (y0 + (y1 - y0) * (e / h))) + (y1 - y0) * (e / h - X / H)) by (rewrite Qv; ring).
    split.
    + rewrite SP. eapply Rle_trans; [apply Rabs_triang|]. apply Rplus_le_compat; [exact C|]. rewrite Rabs_mult. apply Rmult_le_compat_l; [apply Rabs_pos|].
      assert (Hd : IZR (t1 - t0) = H * 1000000) by (rewrite minus_IZR; unfold H, sec; field). rewrite Hd.
      assert (HP : 1e-6 <= H) by (unfold H; lra).
      replace (e / h - X / H) with (((e - X) + X / H * (H - h)) / h) by (field; lra).
      assert (XH : 0 <= X / H <= 1). { split; [apply Rmult_le_pos; [lra|left; apply Rinv_0_lt_compat; lra]|]. apply Rmult_le_reg_r with H; [lra|]. unfold Rdiv. rewrite Rmult_assoc, Rinv_l by lra. lra. }
      assert (N : Rabs ((e - X) + X / H * (H - h)) <= 9.6e-7).
      { eapply Rle_trans; [apply Rabs_triang|]. rewrite Rabs_mult, (Rabs_pos_eq (X / H)) by lra.
        assert (Rabs (e - X) <= 4.8e-7) by (apply Rabs_le; unfold e, X; lra). assert (Rabs (H - h) <= 4.8e-7) by (apply Rabs_le; unfold h, H; lra).
        assert (X / H * Rabs (H - h) <= 1 * 4.8e-7) by (apply Rmult_le_compat; try lra; apply Rabs_pos). lra. }
      unfold Rdiv at 1. rewrite Rabs_mult. rewrite (Rabs_pos_eq (/ h)) by (left; apply Rinv_0_lt_compat; lra).
      assert (hH : 0.52 * H <= h) by (unfold h, H in *; lra).
      apply Rle_trans with (9.6e-7 * / (0.52 * H)).
      * apply Rmult_le_compat; [apply Rabs_pos|left; apply Rinv_0_lt_compat; lra|exact N|]. apply Rinv_le_contravar; lra.
      * apply Rmult_le_reg_r with H; [lra|]. replace (9.6e-7 * / (0.52 * H) * H) with (9.6e-7 / 0.52) by (field; lra). replace (2 / (H * 1000000) * H) with (2 / 1000000) by (field; lra). lra.
    + intros Ev. replace (P - q) with (P - (y0 + (y1 - y0) * (e / h))); [exact C|]. rewrite SP. assert (Z0 : e / h - X / H = 0); [|rewrite Z0; ring].
      destruct Ev as [Ev|Ev].
      * unfold e, X. rewrite Ev. unfold Rdiv. ring.
      * unfold e, X. rewrite Ev. fold h H. field. unfold H in *. split; lra.
Qed.
Print Assumptions C105_position.

(** A ship lying still at a position of the machine has exactly this position at all times, also before the first and after the last fix. *)
Theorem C105_still : forall rnd ts ys x v, good_rnd rnd -> StronglySorted Z.lt ts -> Forall in_range ts -> (2 <= length ts)%nat ->
  length ys = length ts -> (forall o, In o ys -> o = Some x) -> rnd x = x -> interp1d_fl rnd (map (fun t => rnd (sec t)) ts) ys v = Some x.
Proof.
  intros rnd ts ys x v G S F H2 Ly Hy Hx. pose proof (stamps_ascending rnd ts G S F) as A.
  pose proof (bracket_exists _ v A ltac:(rewrite map_length; exact H2)) as B. set (k := (interp_index (map (fun t => rnd (sec t)) ts) v - 1)%nat) in *.
  pose proof (bracket_index _ _ _ A B) as E. destruct B as [L _]. rewrite map_length in L. unfold interp1d_fl. rewrite E. replace (Datatypes.S k - 1)%nat with k by lia.
  rewrite (Hy (nth k ys None)) by (apply nth_In; lia). rewrite (Hy (nth (Datatypes.S k) ys None)) by (apply nth_In; lia).
  rewrite Rminus_diag_eq by reflexivity. rewrite (rnd_0 rnd G). unfold Rdiv. rewrite Rmult_0_l, (rnd_0 rnd G), Rmult_0_l, (rnd_0 rnd G), Rplus_0_l, Hx. reflexivity.
Qed.
Print Assumptions C105_still.

(** From fixes, readings and times to the anomaly, all in double precision, for a ship lying still. *)
Theorem C105_anchored : forall F nav ts x y0 rgrav times bias samp n k r y m d h mi s us tm i T,
  double_arith F -> StronglySorted Z.lt ts -> Forall in_range ts -> (2 <= length ts)%nat -> map f_time nav = map sec ts ->
  Forall (fun f => f_lon f = Some x /\ f_lat f = Some y0) nav -> b64 x = x -> b64 y0 = y0 -> Rabs x <= 360 -> Rabs y0 <= 90 ->
  length rgrav = n -> length times = n -> (3 <= n)%nat -> 0 <= samp <= 1 ->
  Forall (fun t => utcoffset t <> None) times -> nth_error rgrav k = Some r -> nth_error times k = Some tm -> Rabs (r + bias) <= 999999 ->
  datetime_new y m d h mi s us (Some 0%Z) = Ok tm -> instant (y, m, d) h mi s us i -> julian_centuries i T -> 0 <= T <= 2 ->
  1 / 100000000000 <= 1 + cos (moon_node T) ->
  exists faa full a, faa_script_fl F nav rgrav times bias samp = Some (Ok (faa, full)) /\ length faa = n /\ nth_error faa k = Some a /\
    Rabs (a - (r + bias - somigliana (S_Nav.rad y0) + (lunar_tide T x y0 0 (utc_hours i) + solar_tide T x y0 0 (utc_hours i)))) <= 0.000063.
Proof.
  intros F nav ts x y0 rgrav times bias samp n k r y m d h mi s us tm i T HF So Ra H2 Et Fn Bx By Mx My Lr Lt Hn Hs Aw Kr Kt Mr Htm Hi HT HT2 HN.
  pose proof (double_good F HF) as GA. pose proof (proj1 GA) as G. pose proof (proj1 HF) as Er.
  assert (Ln : length nav = length ts) by (rewrite <- (map_length f_time), Et, map_length; reflexivity). rewrite Forall_forall in Fn.
  assert (Es : map (fun f => rnd F (f_time f)) nav = map (fun t => rnd F (sec t)) ts) by (rewrite <- (map_map f_time (rnd F)), Et, map_map; reflexivity).
  assert (P : forall (g : fix_row -> option R) z l, (forall f, In f nav -> g f = Some z) -> b64 z = z ->
    map (interp1d_fl (rnd F) (map (fun f => rnd F (f_time f)) nav) (map g nav)) l = map Some (repeat z (length l))).
  { intros g z l Hg Hz. rewrite Es. induction l as [|v l IH]; [reflexivity|]. cbn [map length repeat]. rewrite IH. f_equal.
    apply C105_still; auto; [rewrite map_length; exact Ln| |rewrite Er; exact Hz]. intros o Ho. apply in_map_iff in Ho. destruct Ho as (f & <- & If). apply Hg. exact If. }
  unfold faa_script_fl. rewrite timestamps. unfold sync_fl. rewrite (P f_lon x), (P f_lat y0) by (auto; intros f If; apply (Fn f If)).
  rewrite !map_length, Lt, !finite_map.
  assert (Rg : Rabs (rnd F (r + bias) - (r + bias)) <= 1e-9).
  { destruct G as [G _]. eapply Rle_trans; [apply G|]. pose proof eta64_small. assert (/ 10 ^ 60 <= 1e-20) by lra. pose proof u64_pos.
    assert (u64 * Rabs (r + bias) <= u64 * 999999) by (apply Rmult_le_compat_l; lra). rewrite u64_val in *. lra. }
  destruct (C102_anchored F x y0 (map (fun g => rnd F (g + bias)) rgrav) times samp n k (rnd F (r + bias)) y m d h mi s us tm i T) as (faa & full & a & E & L & Ka & V);
    rewrite ?map_length; auto; [rewrite nth_error_map, Kr; reflexivity| |].
  - apply Rabs_le_inv in Rg. apply Rabs_le_inv in Mr. apply Rabs_le. lra.
  - exists faa, full, a. rewrite E. split; [reflexivity|]. split; [exact L|]. split; [exact Ka|].
    match goal with |- Rabs ?e <= _ => replace e with ((a - (rnd F (r + bias) - somigliana (S_Nav.rad y0) + (lunar_tide T x y0 0 (utc_hours i) + solar_tide T x y0 0 (utc_hours i)))) + (rnd F (r + bias) - (r + bias))) by ring end.
    eapply Rle_trans; [apply Rabs_triang|]. lra.
Qed.
Print Assumptions C105_anchored.

(** Two fixes a second apart: the position a quarter of a second after the first; and the anomaly on a moored ship. *)
Lemma b64_int z : (Z.abs z < 2 ^ 53)%Z -> b64 (IZR z) = IZR z.
Proof.
  intros H. unfold b64. apply Flocq.Core.Generic_fmt.round_generic; [apply Flocq.Core.Generic_fmt.valid_rnd_N|].
  apply Flocq.Core.FLT.generic_format_FLT. apply (Flocq.Core.FLT.FLT_spec _ _ _ _ (Flocq.Core.Defs.Float Flocq.Core.Zaux.radix2 z 0)).
  - unfold Flocq.Core.Defs.F2R. cbn. ring.
  - exact H.
  - cbn. lia.
Qed.
Definition case_ts : list Z := [1709201730250000; 1709201731250000]%Z.
Lemma case_sorted : StronglySorted Z.lt case_ts.
Proof. repeat constructor. Qed.
Lemma case_range : Forall in_range case_ts.
Proof. repeat constructor; unfold in_range; lia. Qed.
Example C105_case : exists p, interp1d_fl b64 (map (fun t => b64 (sec t)) case_ts) [Some 10; Some 10.5] (b64 (sec 1709201730500000)) = Some p /\ Rabs (p - 10.125) <= 1.001e-6.
Proof.
  assert (B : bracket (map IZR case_ts) (IZR 1709201730500000) 0) by (split; [cbn; lia|split; [left; reflexivity|left; reflexivity]]).
  destruct (C105_position b64 case_ts [Some 10; Some 10.5] 1709201730500000 0 b64_good case_sorted case_range ltac:(unfold in_range; lia) B) as [_ H].
  destruct (H 10 10.5 eq_refl eq_refl) as (p & E & V); [rewrite Rabs_pos_eq; lra|rewrite Rabs_pos_eq; lra|cbn; lia|].
  exists p. split; [exact E|]. cbn [nth case_ts] in V. destruct (V 10.125) as [V1 _]; [unfold on_line; lra|]. eapply Rle_trans; [exact V1|].
  replace (10.5 - 10) with 0.5 by lra. rewrite Rabs_pos_eq by lra. change (1709201731250000 - 1709201730250000)%Z with 1000000%Z. lra.
Qed.
Example C105_anchored_case : exists faa full a,
  faa_script_fl rounded [Fix (sec 1709201730250000) (Some 10) (Some 45); Fix (sec 1709201731250000) (Some 10) (Some 45)] [10000; 10001; 10002]
    [origin_time; origin_time; origin_time] 970000 1 = Some (Ok (faa, full)) /\ length faa = 3%nat /\ nth_error faa 1 = Some a /\
  Rabs (a - (10001 + 970000 - somigliana (S_Nav.rad 45) + (lunar_tide 0 10 45 0 12 + solar_tide 0 10 45 0 12))) <= 0.000063.
Proof.
  destruct C101_case as (GD & HT & Htm & Hi & HN).
  assert (HU : utc_hours (-2209032000000000) = 12).
  { unfold utc_hours. change (-2209032000000000 mod (86400 * 1000000) / 1000000)%Z with 43200%Z. lra. }
  rewrite <- HU.
  apply (C105_anchored rounded _ case_ts 10 45 [10000; 10001; 10002] [origin_time; origin_time; origin_time] 970000 1 3 1 10001
    1899%Z 12%Z 31%Z 12%Z 0%Z 0%Z 0%Z origin_time (-2209032000000000) 0); try reflexivity; try assumption; try lra; try lia.
  - exact case_sorted.
  - exact case_range.
  - repeat constructor.
  - apply (b64_int 10). lia.
  - apply (b64_int 45). lia.
  - rewrite Rabs_pos_eq; lra.
  - rewrite Rabs_pos_eq; lra.
  - repeat constructor; discriminate.
  - rewrite Rabs_pos_eq; lra.
Qed.
