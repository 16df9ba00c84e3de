(** A verified error analysis of the expressions of M_Float.v: ranges and error bounds are
    computed with integers counted in units of 2^-200, and proved sound. *)
From Coq Require Import List ZArith QArith Qreals Reals Lia Lra Psatz Bool.
From Verif Require Import M_Py S_Base L_Base M_Float S_Round L_Round.
Import ListNotations.
Open Scope R_scope.

Definition sc : Z := (2 ^ 200)%Z.
(** the real number counted by [z] *)
Definition vz (z : Z) : R := IZR z / IZR sc.

Record bnd : Type := Bd { lo : Z; hi : Z; er : Z }.
Definition mag (b : bnd) : Z := Z.max (- lo b) (hi b).

(** [x] is in the range, and the computed [xt] within the error *)
Definition ok (b : bnd) (x xt : R) : Prop :=
  vz (lo b) <= x <= vz (hi b) /\ Rabs (xt - x) <= vz (er b).

Definition good_arith (F : farith) : Prop :=
  good_rnd (rnd F) /\ good_fun (fsin F) sin /\ good_fun (fcos F) cos /\ good_fun (fatan F) atan /\
  good_arc (fasin F) asin /\ good_arc (facos F) acos /\ good_pow (fpow F).

(** Double precision with library functions that are good to one unit in the last place. *)
Definition double_arith (F : farith) : Prop :=
  rnd F = b64 /\ good_fun (fsin F) sin /\ good_fun (fcos F) cos /\ good_fun (fatan F) atan /\
  good_arc (fasin F) asin /\ good_arc (facos F) acos /\ good_pow (fpow F).
Lemma double_good F : double_arith F -> good_arith F.
Proof. intros (E & H). split; [|exact H]. rewrite E. apply b64_good. Qed.

Definition mulup (a b : Z) : Z := (a * b / sc + 1)%Z.
Definition divup (a b : Z) : Z := (a * sc / b + 1)%Z.
Definition rnder (m e : Z) : Z := (e + (m + e) / 2 ^ 53 + 2)%Z.
Definition libm : Z := (2 ^ 148)%Z.
Definition one : Z := sc.
(** magnitude and error of a power *)
Fixpoint powb (m e : Z) (n : nat) : Z * Z :=
  match n with
  | O => (sc, 0%Z)
  | S k => let '(M, E) := powb m e k in
           (mulup m M, mulup m E + mulup M e + mulup e E)%Z
  end.

Fixpoint bound (bs : nat -> bnd) (e : fx) : option bnd :=
  match e with
  | Arg n => Some (bs n)
  | Int z => Some (Bd (z * sc) (z * sc) 0)
  | Cst q => let l := (Qnum q * sc / Zpos (Qden q))%Z in
             Some (Bd l (l + 1) (rnder (Z.max (- l) (l + 1)) 0))
  | Deg => Some (Bd 0 (sc / 45 + 1) (sc / 2 ^ 53 / 10))
  | Neg e => match bound bs e with Some b => Some (Bd (- hi b) (- lo b) (er b)) | None => None end
  | Add e f =>
      match bound bs e, bound bs f with
      | Some b, Some c =>
          let l := (lo b + lo c)%Z in let h := (hi b + hi c)%Z in
          Some (Bd l h (rnder (Z.max (- l) h) (er b + er c)))
      | _, _ => None
      end
  | Sub e f =>
      match bound bs e, bound bs f with
      | Some b, Some c =>
          let l := (lo b - hi c)%Z in let h := (hi b - lo c)%Z in
          Some (Bd l h (rnder (Z.max (- l) h) (er b + er c)))
      | _, _ => None
      end
  | Mul e f =>
      match bound bs e, bound bs f with
      | Some b, Some c =>
          let m := mulup (mag b) (mag c) in
          let l := if (0 <=? lo b)%Z && (0 <=? lo c)%Z then (lo b * lo c / sc)%Z else (- m)%Z in
          Some (Bd l m (rnder m (mulup (mag b) (er c) + mulup (mag c) (er b) + mulup (er b) (er c))))
      | _, _ => None
      end
  | Div e f =>
      match bound bs e, bound bs f with
      | Some b, Some c =>
          if (0 <? lo c - er c)%Z then
            let m := divup (mag b) (lo c) in
            let l := if (0 <=? lo b)%Z then (lo b * sc / hi c)%Z else (- m)%Z in
            Some (Bd l m (rnder m (divup (er b + mulup m (er c)) (lo c - er c))))
          else None
      | _, _ => None
      end
  | Sqrt e =>
      match bound bs e with
      | Some b =>
          let l := Z.sqrt (lo b * sc) in let h := (Z.sqrt (hi b * sc) + 1)%Z in
          if (0 <? l)%Z && (0 <=? lo b - er b)%Z then Some (Bd l h (rnder h (divup (er b) l))) else None
      | None => None
      end
  | Sin e =>
      match bound bs e with
      | Some b => let m := Z.min one (mag b) in Some (Bd (- m) m (er b + libm))
      | None => None
      end
  | Cos e =>
      match bound bs e with
      | Some b => Some (Bd (- one) one (er b + libm))
      | None => None
      end
  | Atan e =>
      match bound bs e with
      | Some b => Some (Bd (- mag b) (mag b) (er b + libm))
      | None => None
      end
  | Asin e =>
      match bound bs e with
      | Some b => if ((mag b + er b) * 100 <=? 96 * sc)%Z
                  then Some (Bd (- (2 * sc)) (2 * sc) (4 * er b + 2 * libm)) else None
      | None => None
      end
  | Acos e =>
      match bound bs e with
      | Some b => if ((mag b + er b) * 100 <=? 96 * sc)%Z
                  then Some (Bd 0 (4 * sc) (4 * er b + 2 * libm)) else None
      | None => None
      end
  | Pow e n =>
      match bound bs e with
      | Some b => let '(M, E) := powb (mag b) (er b) n in
                  Some (Bd (- M) M (E + (M + E) / 2 ^ 52 + 2))
      | None => None
      end
  end.

(** ** Counting *)
Lemma sc_pos : 0 < IZR sc.
Proof. apply IZR_lt. reflexivity. Qed.
Lemma sc_posZ : (0 < sc)%Z.
Proof. reflexivity. Qed.
Opaque sc.

Lemma vz_add a b : vz (a + b) = vz a + vz b.
Proof. unfold vz. rewrite plus_IZR. lra. Qed.
Lemma vz_sub a b : vz (a - b) = vz a - vz b.
Proof. unfold vz. rewrite minus_IZR. lra. Qed.
Lemma vz_opp a : vz (- a) = - vz a.
Proof. unfold vz. rewrite opp_IZR. lra. Qed.
Lemma vz_le a b : (a <= b)%Z -> vz a <= vz b.
Proof.
  intros H. unfold vz. apply Rmult_le_compat_r; [left; apply Rinv_0_lt_compat, sc_pos|].
  apply IZR_le. exact H.
Qed.
Lemma vz_0 : vz 0 = 0.
Proof. unfold vz. lra. Qed.
Lemma vz_nonneg a : (0 <= a)%Z -> 0 <= vz a.
Proof. intros H. rewrite <- vz_0. apply vz_le. exact H. Qed.
Lemma vz_pos a : (0 < a)%Z -> 0 < vz a.
Proof.
  intros H. unfold vz. apply Rmult_lt_0_compat; [apply IZR_lt; exact H|apply Rinv_0_lt_compat, sc_pos].
Qed.
Lemma vz_nonneg_inv a : 0 <= vz a -> (0 <= a)%Z.
Proof.
  intros H. apply le_IZR. unfold vz in H. apply Rmult_le_reg_r with (/ IZR sc);
  [apply Rinv_0_lt_compat, sc_pos|]. unfold Rdiv in H. lra.
Qed.
Lemma vz_max a b : vz (Z.max a b) = Rmax (vz a) (vz b).
Proof.
  destruct (Z.max_spec a b) as [[H ->]|[H ->]].
  - symmetry. apply Rmax_right. apply vz_le. lia.
  - symmetry. apply Rmax_left. apply vz_le. lia.
Qed.
Lemma vz_sc z : vz (z * sc) = IZR z.
Proof. unfold vz. rewrite mult_IZR. field. pose proof sc_pos. lra. Qed.

Lemma IZR_div a b : (0 < b)%Z -> IZR a / IZR b < IZR (a / b) + 1 /\ IZR (a / b) <= IZR a / IZR b.
Proof.
  intros H. assert (Hb : 0 < IZR b) by (apply IZR_lt; exact H).
  pose proof (Z.div_mod a b ltac:(lia)) as E. pose proof (Z.mod_pos_bound a b H) as M.
  assert (E' : IZR a = IZR b * IZR (a / b) + IZR (a mod b)) by (rewrite <- mult_IZR, <- plus_IZR; f_equal; exact E).
  assert (M1 : 0 <= IZR (a mod b)) by (apply IZR_le; lia).
  assert (M2 : IZR (a mod b) < IZR b) by (apply IZR_lt; lia).
  split.
  - apply Rmult_lt_reg_r with (IZR b); [exact Hb|]. unfold Rdiv. rewrite Rmult_assoc, Rinv_l by lra. lra.
  - apply Rmult_le_reg_r with (IZR b); [exact Hb|]. unfold Rdiv. rewrite Rmult_assoc, Rinv_l by lra. lra.
Qed.

Lemma mulup_ok a b : vz a * vz b <= vz (mulup a b).
Proof.
  unfold mulup. destruct (IZR_div (a * b) sc sc_posZ) as [H _].
  unfold vz at 3. rewrite plus_IZR. 
  replace (vz a * vz b) with (IZR (a * b) / IZR sc / IZR sc)
    by (unfold vz; rewrite mult_IZR; field; pose proof sc_pos; lra).
  apply Rmult_le_compat_r; [left; apply Rinv_0_lt_compat, sc_pos|]. lra.
Qed.

Lemma divup_ok a b : (0 < b)%Z -> vz a / vz b <= vz (divup a b).
Proof.
  intros Hb. unfold divup. destruct (IZR_div (a * sc) b Hb) as [H _].
  assert (Hb' : 0 < IZR b) by (apply IZR_lt; exact Hb). pose proof sc_pos as Hs.
  unfold vz at 3. rewrite plus_IZR.
  replace (vz a / vz b) with (IZR (a * sc) / IZR b / IZR sc)
    by (unfold vz; rewrite mult_IZR; field; lra).
  apply Rmult_le_compat_r; [left; apply Rinv_0_lt_compat, sc_pos|]. lra.
Qed.

Lemma mag_abs b x : vz (lo b) <= x <= vz (hi b) -> Rabs x <= vz (mag b).
Proof.
  intros H. unfold mag. rewrite vz_max, vz_opp. apply Rabs_le.
  pose proof (Rmax_l (- vz (lo b)) (vz (hi b))). pose proof (Rmax_r (- vz (lo b)) (vz (hi b))). lra.
Qed.

Transparent sc.
Lemma eta_vz : eta64 <= vz 1.
Proof.
  unfold eta64, vz. replace (1 / IZR sc) with (/ 2 ^ 200).
  - apply Rinv_le_contravar; [apply pow_lt; lra|]. apply Rle_pow; [lra|lia].
  - unfold sc, Rdiv. rewrite Rmult_1_l. f_equal. rewrite pow_IZR. reflexivity.
Qed.
Lemma libm_vz : vz libm = / 2 ^ 52.
Proof.
  unfold vz, libm, sc. lra.
Qed.
Opaque sc.

Lemma rnder_ok rd m e x xt : good_rnd rd -> Rabs x <= vz m -> Rabs (xt - x) <= vz e ->
  Rabs (rd xt - x) <= vz (rnder m e).
Proof.
  intros [G _] Hx He. unfold rnder. rewrite !vz_add.
  replace (rd xt - x) with ((xt - x) + (rd xt - xt)) by ring.
  eapply Rle_trans; [apply Rabs_triang|]. specialize (G xt).
  assert (Hxt : Rabs xt <= vz m + vz e).
  { replace xt with (x + (xt - x)) by ring. eapply Rle_trans; [apply Rabs_triang|]. lra. }
  pose proof u64_pos as Hu. pose proof eta_vz as Heta.
  assert (H1 : u64 * Rabs xt <= u64 * vz (m + e)) by (rewrite vz_add; apply Rmult_le_compat_l; lra).
  assert (H2 : u64 * vz (m + e) <= vz ((m + e) / 2 ^ 53) + vz 1).
  { destruct (IZR_div (m + e) (2 ^ 53) eq_refl) as [H _].
    rewrite <- vz_add. unfold vz. rewrite (plus_IZR ((m + e) / 2 ^ 53) 1). unfold Rdiv at 1. rewrite <- Rmult_assoc.
    apply Rmult_le_compat_r; [left; apply Rinv_0_lt_compat, sc_pos|].
    replace (u64 * IZR (m + e)) with (IZR (m + e) / IZR (2 ^ 53)); [lra|].
    rewrite u64_val. change (2 ^ 53)%Z with 9007199254740992%Z. lra. }
  replace (vz 2) with (vz 1 + vz 1) by (rewrite <- vz_add; reflexivity). lra.
Qed.

Lemma ok_abs b x xt : ok b x xt -> Rabs x <= vz (mag b).
Proof. intros [H _]. apply mag_abs. exact H. Qed.

Lemma range_abs l h x : vz l <= x <= vz h -> Rabs x <= vz (Z.max (- l) h).
Proof. intros H. apply (mag_abs (Bd l h 0)). exact H. Qed.

Lemma abs_range m x : Rabs x <= vz m -> vz (- m) <= x <= vz m.
Proof. intros H. rewrite vz_opp. unfold Rabs in H. destruct (Rcase_abs x); split; lra. Qed.

Lemma lip_sin x y : Rabs (sin x - sin y) <= Rabs (x - y).
Proof.
  destruct (MVT_abs sin cos x y) as (c & Hc & _).
  { intros c _. apply derivable_pt_lim_sin. }
  rewrite (Rabs_minus_sym (sin x)), (Rabs_minus_sym x), Hc.
  apply Rle_trans with (1 * Rabs (y - x)); [|lra]. apply Rmult_le_compat_r; [apply Rabs_pos|].
  apply Rabs_le. pose proof (COS_bound c). lra.
Qed.

Lemma lip_cos x y : Rabs (cos x - cos y) <= Rabs (x - y).
Proof.
  destruct (MVT_abs cos (fun t => - sin t) x y) as (c & Hc & _).
  { intros c _. apply derivable_pt_lim_cos. }
  rewrite (Rabs_minus_sym (cos x)), (Rabs_minus_sym x), Hc.
  apply Rle_trans with (1 * Rabs (y - x)); [|lra]. apply Rmult_le_compat_r; [apply Rabs_pos|].
  apply Rabs_le. pose proof (SIN_bound c). lra.
Qed.

Lemma lip_atan x y : Rabs (atan x - atan y) <= Rabs (x - y).
Proof.
  destruct (MVT_abs atan (fun t => / (1 + t ^ 2)) x y) as (c & Hc & _).
  { intros c _. apply derivable_pt_lim_atan. }
  rewrite (Rabs_minus_sym (atan x)), (Rabs_minus_sym x), Hc.
  apply Rle_trans with (1 * Rabs (y - x)); [|lra]. apply Rmult_le_compat_r; [apply Rabs_pos|].
  assert (H : 1 <= 1 + c ^ 2) by (pose proof (pow2_ge_0 c); lra).
  rewrite Rabs_pos_eq by (left; apply Rinv_0_lt_compat; lra).
  rewrite <- Rinv_1. apply Rinv_le_contravar; lra.
Qed.

Lemma deg_err rd : good_rnd rd -> Rabs (rd (rd PI / 180) - PI / 180) <= u64 * (9 / 100).
Proof.
  intros G. pose proof u64_pos as Hu. pose proof PI_RGT_0 as H0. pose proof PI_4 as H4.
  pose proof PI2_1 as H1.
  assert (R1 : rel 1.001 PI (rd PI)).
  { eapply rel_le; [apply rel_rnd with (k := 0); [exact G|lra| |apply rel_refl]|lra].
    right. rewrite Rabs_pos_eq by lra. lra. }
  assert (R2 : rel 2.1 (PI / 180) (rd (rd PI / 180))).
  { eapply rel_le; [apply rel_rnd with (k := 1.001 + 0 + / 100); [exact G|lra| |]|lra].
    - right. rewrite Rabs_pos_eq; lra.
    - apply rel_div; try lra; [exact R1|apply rel_refl]. }
  unfold rel in R2. rewrite (Rabs_pos_eq (PI / 180)) in R2 by lra.
  eapply Rle_trans; [exact R2|].
  apply Rle_trans with (2.1 * u64 * (4 / 180)); [apply Rmult_le_compat_l; lra|]. lra.
Qed.

Lemma ok_er b x xt : ok b x xt -> 0 <= vz (er b).
Proof. intros [_ H]. eapply Rle_trans; [apply Rabs_pos|exact H]. Qed.

Lemma sin_abs x : Rabs (sin x) <= Rabs x.
Proof. pose proof (lip_sin x 0) as H. rewrite sin_0, !Rminus_0_r in H. exact H. Qed.
Lemma atan_abs x : Rabs (atan x) <= Rabs x.
Proof. pose proof (lip_atan x 0) as H. rewrite atan_0, !Rminus_0_r in H. exact H. Qed.

Lemma vz_one : vz one = 1.
Proof. unfold vz, one. field. pose proof sc_pos. lra. Qed.

Lemma vz_min a b : vz (Z.min a b) = Rmin (vz a) (vz b).
Proof.
  destruct (Z.min_spec a b) as [[H ->]|[H ->]].
  - symmetry. apply Rmin_left. apply vz_le. lia.
  - symmetry. apply Rmin_right. apply vz_le. lia.
Qed.

(** a function that is computed within one unit of 1, and does not stretch distances *)
Lemma ok_fun f g b x xt : good_fun f g -> (forall s t, Rabs (g s - g t) <= Rabs (s - t)) ->
  ok b x xt -> Rabs (f xt - g x) <= vz (er b + libm).
Proof.
  intros G L [_ H]. rewrite vz_add, libm_vz.
  replace (f xt - g x) with ((f xt - g xt) + (g xt - g x)) by ring.
  eapply Rle_trans; [apply Rabs_triang|]. specialize (G xt). specialize (L xt x). lra.
Qed.

Transparent sc.
Lemma deg_er_ok : u64 * (9 / 100) <= vz (sc / 2 ^ 53 / 10).
Proof.
  unfold vz. rewrite u64_val.
  let v := eval vm_compute in (sc / 2 ^ 53 / 10)%Z in change (sc / 2 ^ 53 / 10)%Z with v.
  let v := eval vm_compute in sc in change sc with v. lra.
Qed.
Opaque sc.

Lemma Some_inj A (a b : A) : Some a = Some b -> a = b.
Proof. congruence. Qed.
Lemma div52 z : / 2 ^ 52 * vz z <= vz (z / 2 ^ 52) + vz 1.
Proof.
  destruct (IZR_div z (2 ^ 52) eq_refl) as [H _].
  rewrite <- vz_add. unfold vz. rewrite (plus_IZR (z / 2 ^ 52) 1). unfold Rdiv. rewrite <- Rmult_assoc.
  apply Rmult_le_compat_r; [left; apply Rinv_0_lt_compat, sc_pos|].
  change (2 ^ 52)%Z with 4503599627370496%Z in *. lra.
Qed.

Lemma muldown_ok a b x y : (0 <= a)%Z -> (0 <= b)%Z -> vz a <= x -> vz b <= y -> vz (a * b / sc) <= x * y.
Proof.
  intros Ha Hb Hx Hy. destruct (IZR_div (a * b) sc sc_posZ) as [_ H].
  apply vz_nonneg in Ha. apply vz_nonneg in Hb.
  apply Rle_trans with (vz a * vz b); [|apply Rmult_le_compat; assumption].
  replace (vz a * vz b) with (IZR (a * b) / IZR sc / IZR sc)
    by (unfold vz; rewrite mult_IZR; field; pose proof sc_pos; lra).
  apply Rmult_le_compat_r; [left; apply Rinv_0_lt_compat, sc_pos|]. exact H.
Qed.

Lemma divdown_ok a h x y : (0 <= a)%Z -> 0 < y -> vz a <= x -> y <= vz h -> vz (a * sc / h) <= x / y.
Proof.
  intros Ha Hy Hx Hh. pose proof sc_pos as Hs.
  assert (Hh0 : (0 < h)%Z).
  { apply lt_IZR. apply Rmult_lt_reg_r with (/ IZR sc); [apply Rinv_0_lt_compat, sc_pos|].
    unfold vz, Rdiv in Hh. lra. }
  destruct (IZR_div (a * sc) h Hh0) as [_ H]. apply vz_nonneg in Ha. apply vz_pos in Hh0 as Hhv.
  apply Rle_trans with (vz a / vz h).
  - replace (vz a / vz h) with (IZR (a * sc) / IZR h / IZR sc).
    + apply Rmult_le_compat_r; [left; apply Rinv_0_lt_compat, sc_pos|]. exact H.
    + assert (Hh1 : 0 < IZR h) by (apply IZR_lt; lia). unfold vz. rewrite mult_IZR. field. repeat split; lra.
  - apply Rmult_le_compat; [exact Ha|left; apply Rinv_0_lt_compat; exact Hhv|exact Hx|].
    apply Rinv_le_contravar; assumption.
Qed.

Lemma lip_asin s t : Rabs s <= 0.96 -> Rabs t <= 0.96 -> Rabs (asin s - asin t) <= 4 * Rabs (s - t).
Proof.
  assert (B : forall x, Rabs x <= 0.96 -> -0.96 <= x <= 0.96)
    by (intros x H; unfold Rabs in H; destruct (Rcase_abs x); lra).
  assert (M : forall a b, a < b -> Rabs a <= 0.96 -> Rabs b <= 0.96 -> Rabs (asin b - asin a) <= 4 * Rabs (b - a)).
  { intros a b Hab Ha Hb. apply B in Ha. apply B in Hb.
    assert (HR : forall c, a < c < b -> -1 < c < 1) by (intros; lra).
    destruct (MVT asin id a b (fun c Hc => derivable_pt_asin c (HR c Hc)) (fun c _ => derivable_pt_id c) Hab)
      as (c & Hc & E).
    - intros c Hc. apply derivable_continuous_pt. apply derivable_pt_asin. lra.
    - intros c Hc. apply derivable_continuous_pt. apply derivable_pt_id.
    - rewrite derive_pt_id, (derive_pt_asin c (HR c Hc)) in E. unfold id in E.
      rewrite Rmult_1_r in E. rewrite <- E. rewrite Rabs_mult, Rmult_comm.
      apply Rmult_le_compat_r; [apply Rabs_pos|].
      assert (HS : / 4 <= sqrt (1 - c ^ 2)).
      { assert (Q : 0 <= / 4) by lra. apply Rle_trans with (sqrt (/ 4 * / 4)); [rewrite (sqrt_square (/ 4) Q); lra|].
        apply sqrt_le_1_alt.
        assert (C : 0 <= (0.96 - c) * (0.96 + c)) by (apply Rmult_le_pos; lra). lra. }
      rewrite Rabs_pos_eq.
      + unfold Rsqr. replace (1 - c * c) with (1 - c ^ 2) by ring.
        unfold Rdiv. rewrite Rmult_1_l. replace 4 with (/ / 4) by lra. apply Rinv_le_contravar; lra.
      + unfold Rsqr. replace (1 - c * c) with (1 - c ^ 2) by ring.
        unfold Rdiv. rewrite Rmult_1_l. left. apply Rinv_0_lt_compat. lra. }
  intros Hs Ht. destruct (Rtotal_order s t) as [H|[->|H]].
  - rewrite (Rabs_minus_sym (asin s)), (Rabs_minus_sym s). apply M; assumption.
  - rewrite !Rminus_diag_eq by reflexivity. rewrite Rabs_R0. lra.
  - apply M; assumption.
Qed.

Lemma lip_acos s t : Rabs s <= 0.96 -> Rabs t <= 0.96 -> Rabs (acos s - acos t) <= 4 * Rabs (s - t).
Proof.
  intros Hs Ht. pose proof (lip_asin s t Hs Ht) as H.
  assert (B : forall x, Rabs x <= 0.96 -> -1 <= x <= 1)
    by (intros x K; unfold Rabs in K; destruct (Rcase_abs x); lra).
  rewrite !acos_asin by (apply B; assumption).
  replace (PI / 2 - asin s - (PI / 2 - asin t)) with (- (asin s - asin t)) by ring. rewrite Rabs_Ropp. exact H.
Qed.

Lemma arc_arg b x xt : ok b x xt -> ((mag b + er b) * 100 <= 96 * sc)%Z -> Rabs x <= 0.96 /\ Rabs xt <= 0.96.
Proof.
  intros H Hm. pose proof (ok_abs _ _ _ H) as HA. pose proof (ok_er _ _ _ H) as HE. destruct H as [_ H].
  assert (K : vz (mag b) + vz (er b) <= 0.96).
  { rewrite <- vz_add. apply IZR_le in Hm. rewrite !mult_IZR in Hm. unfold vz. pose proof sc_pos as Hs.
    apply Rmult_le_reg_r with (IZR sc); [exact Hs|]. unfold Rdiv. rewrite Rmult_assoc, Rinv_l by lra. lra. }
  split; [lra|]. replace xt with (x + (xt - x)) by ring. eapply Rle_trans; [apply Rabs_triang|]. lra.
Qed.

Lemma ok_arc f g b x xt : good_arc f g ->
  (forall s t, Rabs s <= 0.96 -> Rabs t <= 0.96 -> Rabs (g s - g t) <= 4 * Rabs (s - t)) ->
  Rabs x <= 0.96 -> Rabs xt <= 0.96 -> ok b x xt -> Rabs (f xt - g x) <= vz (4 * er b + 2 * libm).
Proof.
  intros G L Hx Hxt [_ H]. specialize (G xt ltac:(lra)). specialize (L xt x Hxt Hx).
  replace (4 * er b + 2 * libm)%Z with (er b + er b + er b + er b + libm + libm)%Z by lia.
  rewrite !vz_add, libm_vz.
  replace (f xt - g x) with ((f xt - g xt) + (g xt - g x)) by ring.
  eapply Rle_trans; [apply Rabs_triang|]. lra.
Qed.

Lemma powb_ok m e x xt : Rabs x <= vz m -> Rabs (xt - x) <= vz e -> forall n M E, powb m e n = (M, E) ->
  Rabs (x ^ n) <= vz M /\ Rabs (xt ^ n - x ^ n) <= vz E.
Proof.
  intros Hx He. induction n as [|n IH]; cbn [powb]; intros M E H.
  - injection H as <- <-. cbn [pow]. rewrite Rminus_diag_eq by reflexivity.
    fold one. rewrite vz_one, vz_0, Rabs_R0, Rabs_R1. lra.
  - destruct (powb m e n) as [M0 E0]. injection H as <- <-.
    destruct (IH M0 E0 eq_refl) as [I1 I2]. cbn [pow]. split.
    + rewrite Rabs_mult. eapply Rle_trans; [|apply mulup_ok].
      apply Rmult_le_compat; try apply Rabs_pos; assumption.
    + replace (xt * xt ^ n - x * x ^ n)
        with (x * (xt ^ n - x ^ n) + x ^ n * (xt - x) + (xt - x) * (xt ^ n - x ^ n)) by ring.
      rewrite !vz_add. eapply Rle_trans; [apply Rabs_triang|].
      apply Rplus_le_compat; [eapply Rle_trans; [apply Rabs_triang|]; apply Rplus_le_compat|];
        (eapply Rle_trans; [|apply mulup_ok]); rewrite Rabs_mult;
        apply Rmult_le_compat; try apply Rabs_pos; assumption.
Qed.

Theorem bound_sound F : good_arith F -> forall bs x xt, (forall n, ok (bs n) (x n) (xt n)) ->
  forall e b, bound bs e = Some b -> ok b (eval x e) (eval_fl F xt e).
Proof.
  intros (GR & GS & GC & GA & GAS & GAC & GP) bs x xt Henv.
  induction e as [n|z|q| |e IH|e IHe f IHf|e IHe f IHf|e IHe f IHf|e IHe f IHf|e IH|e IH|e IH|e IH|e IH|e IH|e IH n];
    intros B HB; cbn [bound eval eval_fl] in *.
  - injection HB as <-. apply Henv.
  - injection HB as <-. split; cbn [lo hi er].
    + rewrite vz_sc. lra.
    + rewrite Rminus_diag_eq by reflexivity. rewrite Rabs_R0, vz_0. lra.
  - injection HB as <-. set (l := (Qnum q * sc / Zpos (Qden q))%Z).
    destruct (IZR_div (Qnum q * sc) (Zpos (Qden q)) eq_refl) as [H1 H2]. fold l in H1, H2.
    assert (E : vz l <= Q2R q <= vz (l + 1)).
    { unfold vz. rewrite plus_IZR. pose proof sc_pos as Hs.
      assert (E : Q2R q = IZR (Qnum q * sc) / IZR (Zpos (Qden q)) / IZR sc).
      { unfold Q2R. rewrite mult_IZR. field. split; [apply not_0_IZR; lia|lra]. }
      rewrite E. split; apply Rmult_le_compat_r; try (left; apply Rinv_0_lt_compat, sc_pos); lra. }
    split; cbn [lo hi er]; [exact E|]. apply rnder_ok; [exact GR|apply range_abs; exact E|].
    rewrite Rminus_diag_eq by reflexivity. rewrite Rabs_R0, vz_0. lra.
  - injection HB as <-. split; cbn [lo hi er].
    + rewrite vz_0, vz_add. destruct (IZR_div sc 45 eq_refl) as [H1 _].
      pose proof PI_RGT_0. pose proof PI_4. split; [lra|].
      assert (1 / 45 <= vz (sc / 45) + vz 1); [|lra].
      rewrite <- vz_add. unfold vz. rewrite plus_IZR. pose proof sc_pos.
      replace (1 / 45) with (IZR sc / 45 / IZR sc) by (field; lra).
      apply Rmult_le_compat_r; [left; apply Rinv_0_lt_compat, sc_pos|]. lra.
    + eapply Rle_trans; [apply deg_err; exact GR|].
      exact deg_er_ok.
  - destruct (bound bs e) as [b|] eqn:E; [|discriminate]. injection HB as <-.
    destruct (IH b eq_refl) as [H1 H2]. split; cbn [lo hi er].
    + rewrite !vz_opp. lra.
    + replace (- eval_fl F xt e - - eval x e) with (- (eval_fl F xt e - eval x e)) by ring.
      rewrite Rabs_Ropp. exact H2.
  - destruct (bound bs e) as [b|]; [|discriminate]. destruct (bound bs f) as [c|]; [|discriminate].
    injection HB as <-. destruct (IHe b eq_refl) as [H1 H2]. destruct (IHf c eq_refl) as [H3 H4].
    assert (E : vz (lo b + lo c) <= eval x e + eval x f <= vz (hi b + hi c)) by (rewrite !vz_add; lra).
    split; cbn [lo hi er]; [exact E|].
    apply rnder_ok; [exact GR|apply range_abs; exact E|]. rewrite vz_add.
    replace (eval_fl F xt e + eval_fl F xt f - (eval x e + eval x f))
      with ((eval_fl F xt e - eval x e) + (eval_fl F xt f - eval x f)) by ring.
    eapply Rle_trans; [apply Rabs_triang|]. lra.
  - destruct (bound bs e) as [b|]; [|discriminate]. destruct (bound bs f) as [c|]; [|discriminate].
    injection HB as <-. destruct (IHe b eq_refl) as [H1 H2]. destruct (IHf c eq_refl) as [H3 H4].
    assert (E : vz (lo b - hi c) <= eval x e - eval x f <= vz (hi b - lo c)) by (rewrite !vz_sub; lra).
    split; cbn [lo hi er]; [exact E|].
    apply rnder_ok; [exact GR|apply range_abs; exact E|]. rewrite vz_add.
    replace (eval_fl F xt e - eval_fl F xt f - (eval x e - eval x f))
      with ((eval_fl F xt e - eval x e) + - (eval_fl F xt f - eval x f)) by ring.
    eapply Rle_trans; [apply Rabs_triang|]. rewrite Rabs_Ropp. lra.
  - destruct (bound bs e) as [b|]; [|discriminate]. destruct (bound bs f) as [c|]; [|discriminate].
    injection HB as <-. pose proof (IHe b eq_refl) as O1. pose proof (IHf c eq_refl) as O2.
    pose proof (ok_abs _ _ _ O1) as M1. pose proof (ok_abs _ _ _ O2) as M2.
    destruct O1 as [R1 H2]. destruct O2 as [R2 H4].
    assert (E : Rabs (eval x e * eval x f) <= vz (mulup (mag b) (mag c))).
    { eapply Rle_trans; [|apply mulup_ok]. rewrite Rabs_mult. apply Rmult_le_compat; try apply Rabs_pos; assumption. }
    split; cbn [lo hi er].
    { pose proof (abs_range _ _ E) as K. split; [|apply K].
      destruct (Z.leb_spec 0 (lo b)) as [L1|]; [|apply K]. destruct (Z.leb_spec 0 (lo c)) as [L2|]; [|apply K].
      cbn [andb]. apply muldown_ok; [exact L1|exact L2|apply R1|apply R2]. }
    apply rnder_ok; [exact GR|exact E|]. rewrite !vz_add.
    set (a := eval x e) in *. set (d := eval x f) in *.
    set (at_ := eval_fl F xt e) in *. set (dt := eval_fl F xt f) in *.
    replace (at_ * dt - a * d) with (a * (dt - d) + d * (at_ - a) + (at_ - a) * (dt - d)) by ring.
    eapply Rle_trans; [apply Rabs_triang|].
    apply Rplus_le_compat; [eapply Rle_trans; [apply Rabs_triang|]; apply Rplus_le_compat|];
      (eapply Rle_trans; [|apply mulup_ok]); rewrite Rabs_mult;
      apply Rmult_le_compat; try apply Rabs_pos; assumption.
  - destruct (bound bs e) as [b|]; [|discriminate]. destruct (bound bs f) as [c|]; [|discriminate].
    destruct (Z.ltb_spec 0 (lo c - er c)) as [Hc|]; [|discriminate].
    injection HB as <-. pose proof (IHe b eq_refl) as O1. pose proof (IHf c eq_refl) as O2.
    pose proof (ok_abs _ _ _ O1) as M1. pose proof (ok_er _ _ _ O2) as HE. pose proof (ok_er _ _ _ O1) as HE1.
    apply vz_nonneg_inv in HE. assert (Hlo : (0 < lo c)%Z) by lia.
    apply vz_pos in Hc as Hcv. rewrite vz_sub in Hcv. apply vz_pos in Hlo as Hlv.
    destruct O1 as [R1 H2]. destruct O2 as [H3 H4].
    set (a := eval x e) in *. set (d := eval x f) in *.
    set (at_ := eval_fl F xt e) in *. set (dt := eval_fl F xt f) in *.
    assert (Hdt : vz (lo c) - vz (er c) <= dt).
    { unfold Rabs in H4. destruct (Rcase_abs (dt - d)); lra. }
    assert (Hd0 : 0 < d) by lra. assert (Hdt0 : 0 < dt) by lra.
    assert (E : Rabs (a / d) <= vz (divup (mag b) (lo c))).
    { eapply Rle_trans; [|apply divup_ok; exact Hlo]. unfold Rdiv. rewrite Rabs_mult.
      rewrite (Rabs_pos_eq (/ d)) by (left; apply Rinv_0_lt_compat; lra).
      apply Rmult_le_compat; try apply Rabs_pos; [left; apply Rinv_0_lt_compat; lra|exact M1|].
      apply Rinv_le_contravar; lra. }
    split; cbn [lo hi er].
    { pose proof (abs_range _ _ E) as K. split; [|apply K].
      destruct (Z.leb_spec 0 (lo b)) as [L1|]; [|apply K].
      apply divdown_ok; [exact L1|exact Hd0|apply R1|apply H3]. }
    apply rnder_ok; [exact GR|exact E|].
    eapply Rle_trans; [|apply divup_ok; exact Hc]. rewrite vz_sub, vz_add.
    replace (at_ / dt - a / d) with (((at_ - a) + - (a / d * (dt - d))) / dt) by (field; lra).
    unfold Rdiv at 1 3. rewrite Rabs_mult. rewrite (Rabs_pos_eq (/ dt)) by (left; apply Rinv_0_lt_compat; lra).
    apply Rmult_le_compat; [apply Rabs_pos|left; apply Rinv_0_lt_compat; lra| |apply Rinv_le_contravar; lra].
    eapply Rle_trans; [apply Rabs_triang|]. rewrite Rabs_Ropp. apply Rplus_le_compat; [exact H2|].
    eapply Rle_trans; [|apply mulup_ok]. rewrite Rabs_mult. apply Rmult_le_compat; try apply Rabs_pos; assumption.
  - destruct (bound bs e) as [b|]; [|discriminate].
    destruct (Z.ltb_spec 0 (Z.sqrt (lo b * sc))) as [Hl|]; [|discriminate].
    destruct (Z.leb_spec 0 (lo b - er b)) as [Hc|]; [|discriminate]. cbn [andb] in HB.
    injection HB as <-. pose proof (IH b eq_refl) as O1. pose proof (ok_er _ _ _ O1) as HE.
    pose proof HE as HEz. apply vz_nonneg_inv in HEz. assert (Hlo0 : (0 <= lo b)%Z) by lia.
    destruct O1 as [H1 H2].
    set (a := eval x e) in *. set (at_ := eval_fl F xt e) in *.
    apply vz_nonneg in Hc. rewrite vz_sub in Hc.
    assert (Hat : 0 <= at_).
    { unfold Rabs in H2. destruct (Rcase_abs (at_ - a)); lra. }
    assert (Ha : 0 <= a) by (apply vz_nonneg in Hlo0; lra).
    assert (Hhi0 : (0 <= hi b)%Z) by (apply vz_nonneg_inv; lra).
    pose proof sc_pos as Hs. pose proof sc_posZ as HsZ.
    assert (SQ : forall z, (0 <= z)%Z -> vz (Z.sqrt (z * sc)) <= sqrt (vz z) <= vz (Z.sqrt (z * sc) + 1)).
    { intros z Hz. pose proof (Z.sqrt_spec (z * sc) ltac:(lia)) as [S1 S2].
      assert (S3 : (0 <= Z.sqrt (z * sc))%Z) by apply Z.sqrt_nonneg.
      set (w := Z.sqrt (z * sc)) in *.
      assert (K : forall t, vz t * vz t = IZR (t * t) / IZR sc / IZR sc)
        by (intros; unfold vz; rewrite mult_IZR; field; lra).
      assert (K2 : vz z = IZR (z * sc) / IZR sc / IZR sc) by (unfold vz; rewrite mult_IZR; field; lra).
      split.
      - rewrite <- (sqrt_square (vz w)) by (apply vz_nonneg; lia). apply sqrt_le_1_alt.
        rewrite K, K2. apply Rmult_le_compat_r; [left; apply Rinv_0_lt_compat; lra|].
        apply Rmult_le_compat_r; [left; apply Rinv_0_lt_compat; lra|]. apply IZR_le. exact S1.
      - rewrite <- (sqrt_square (vz (w + 1))) by (apply vz_nonneg; lia). apply sqrt_le_1_alt.
        rewrite K, K2. apply Rmult_le_compat_r; [left; apply Rinv_0_lt_compat; lra|].
        apply Rmult_le_compat_r; [left; apply Rinv_0_lt_compat; lra|]. apply IZR_le. lia. }
    pose proof (SQ (lo b) Hlo0) as [SL _]. pose proof (SQ (hi b) Hhi0) as [_ SH].
    assert (E : vz (Z.sqrt (lo b * sc)) <= sqrt a <= vz (Z.sqrt (hi b * sc) + 1)).
    { split; [eapply Rle_trans; [exact SL|]; apply sqrt_le_1_alt; lra|].
      eapply Rle_trans; [|exact SH]. apply sqrt_le_1_alt. lra. }
    split; cbn [lo hi er]; [exact E|].
    apply vz_pos in Hl as Hlv.
    apply rnder_ok; [exact GR| |].
    + rewrite Rabs_pos_eq by apply sqrt_pos. lra.
    + eapply Rle_trans; [|apply divup_ok; exact Hl].
      assert (Hsa : 0 < sqrt a) by lra. pose proof (sqrt_pos at_) as Hsat.
      replace (sqrt at_ - sqrt a) with ((at_ - a) / (sqrt at_ + sqrt a)).
      * unfold Rdiv. rewrite Rabs_mult. rewrite (Rabs_pos_eq (/ (sqrt at_ + sqrt a))) by (left; apply Rinv_0_lt_compat; lra).
        apply Rmult_le_compat; [apply Rabs_pos|left; apply Rinv_0_lt_compat; lra|exact H2|apply Rinv_le_contravar; lra].
      * assert (E1 : sqrt at_ * sqrt at_ = at_) by (apply sqrt_sqrt; exact Hat).
        assert (E2 : sqrt a * sqrt a = a) by (apply sqrt_sqrt; exact Ha).
        replace (at_ - a) with ((sqrt at_ - sqrt a) * (sqrt at_ + sqrt a)) by (ring_simplify; lra).
        field. lra.
  - destruct (bound bs e) as [b|]; [|discriminate]. injection HB as <-. pose proof (IH b eq_refl) as O1.
    split; cbn [lo hi er]; [|apply ok_fun; [exact GS|apply lip_sin|exact O1]].
    apply abs_range. rewrite vz_min, vz_one. apply Rmin_glb.
    + apply Rabs_le. pose proof (SIN_bound (eval x e)). lra.
    + eapply Rle_trans; [apply sin_abs|]. exact (ok_abs _ _ _ O1).
  - destruct (bound bs e) as [b|]; [|discriminate]. injection HB as <-. pose proof (IH b eq_refl) as O1.
    split; cbn [lo hi er]; [|apply ok_fun; [exact GC|apply lip_cos|exact O1]].
    rewrite vz_opp, vz_one. pose proof (COS_bound (eval x e)). lra.
  - destruct (bound bs e) as [b|]; [|discriminate]. injection HB as <-. pose proof (IH b eq_refl) as O1.
    split; cbn [lo hi er]; [|apply ok_fun; [exact GA|apply lip_atan|exact O1]].
    apply abs_range. eapply Rle_trans; [apply atan_abs|]. exact (ok_abs _ _ _ O1).
  - destruct (bound bs e) as [b|]; [|discriminate].
    destruct (Z.leb_spec ((mag b + er b) * 100) (96 * sc)) as [Hm|]; [|discriminate].
    apply Some_inj in HB. subst B. pose proof (IH b eq_refl) as O1. destruct (arc_arg _ _ _ O1 Hm) as [A1 A2].
    split; cbn [lo hi er].
    + rewrite vz_opp, !vz_sc. pose proof (asin_bound (eval x e)). pose proof PI_4. lra.
    + apply ok_arc; try assumption. intros s t Hs Ht. apply lip_asin; assumption.
  - destruct (bound bs e) as [b|]; [|discriminate].
    destruct (Z.leb_spec ((mag b + er b) * 100) (96 * sc)) as [Hm|]; [|discriminate].
    apply Some_inj in HB. subst B. pose proof (IH b eq_refl) as O1. destruct (arc_arg _ _ _ O1 Hm) as [A1 A2].
    split; cbn [lo hi er].
    + rewrite vz_0, vz_sc. pose proof (acos_bound (eval x e)). pose proof PI_4. lra.
    + apply ok_arc; try assumption. intros s t Hs Ht. apply lip_acos; assumption.
  - destruct (bound bs e) as [b|]; [|discriminate]. pose proof (IH b eq_refl) as O1.
    destruct (powb (mag b) (er b) n) as [M E] eqn:EP. apply Some_inj in HB. subst B.
    destruct (powb_ok _ _ _ _ (ok_abs _ _ _ O1) (proj2 O1) n _ _ EP) as [P1 P2].
    split; cbn [lo hi er]; [apply abs_range; exact P1|].
    specialize (GP (eval_fl F xt e) n). set (yt := eval_fl F xt e) in *. set (y := eval x e) in *.
    replace (fpow F yt n - y ^ n) with ((fpow F yt n - yt ^ n) + (yt ^ n - y ^ n)) by ring.
    eapply Rle_trans; [apply Rabs_triang|].
    assert (Q : Rabs (yt ^ n) <= vz (M + E)).
    { replace (yt ^ n) with (y ^ n + (yt ^ n - y ^ n)) by ring. rewrite vz_add.
      eapply Rle_trans; [apply Rabs_triang|]. lra. }
    pose proof (div52 (M + E)) as D. pose proof eta_vz as Heta.
    assert (Q2 : / 2 ^ 52 * Rabs (yt ^ n) <= / 2 ^ 52 * vz (M + E))
      by (apply Rmult_le_compat_l; [left; apply Rinv_0_lt_compat, pow_lt; lra|exact Q]).
    rewrite !vz_add. replace (vz 2) with (vz 1 + vz 1) by (rewrite <- vz_add; reflexivity). lra.
Qed.

(** ** Using the analysis *)
Definition bargs (l : list bnd) : nat -> bnd := fun n => nth n l (Bd 0 0 0).
Fixpoint all_ok (bs : list bnd) (xs ts : list R) : Prop :=
  match bs, xs, ts with
  | b :: bs, x :: xs, t :: ts => ok b x t /\ all_ok bs xs ts
  | [], [], [] => True
  | _, _, _ => False
  end.

Lemma ok_zero : ok (Bd 0 0 0) 0 0.
Proof. split; cbn [lo hi er]; rewrite vz_0; [lra|]. rewrite Rminus_0_r, Rabs_R0. lra. Qed.

Lemma all_ok_args : forall bs xs ts, all_ok bs xs ts -> forall n, ok (bargs bs n) (args xs n) (args ts n).
Proof.
  unfold bargs, args. induction bs as [|b bs IH]; intros [|x xs] [|t ts] H n; cbn [all_ok] in H; try contradiction.
  - destruct n; apply ok_zero.
  - destruct H as [H1 H2]. destruct n; cbn [nth]; [exact H1|]. apply IH. exact H2.
Qed.

(** the range |x| <= n/d *)
Definition sym (n d e : Z) : bnd := Bd (- (n * sc / d + 1)) (n * sc / d + 1) e.
Lemma ok_sym n d e x xt : (0 < d)%Z -> Rabs x <= IZR n / IZR d -> Rabs (xt - x) <= vz e -> ok (sym n d e) x xt.
Proof.
  intros Hd Hx He. split; cbn [sym lo hi er]; [|exact He]. apply abs_range.
  eapply Rle_trans; [exact Hx|]. destruct (IZR_div (n * sc) d Hd) as [H _].
  unfold vz. rewrite plus_IZR. pose proof sc_pos. assert (0 < IZR d) by (apply IZR_lt; exact Hd).
  replace (IZR n / IZR d) with (IZR (n * sc) / IZR d / IZR sc) by (rewrite mult_IZR; field; lra).
  apply Rmult_le_compat_r; [left; apply Rinv_0_lt_compat, sc_pos|]. lra.
Qed.
Lemma ok_exact n d x : (0 < d)%Z -> Rabs x <= IZR n / IZR d -> ok (sym n d 0) x x.
Proof.
  intros Hd Hx. apply ok_sym; [exact Hd|exact Hx|]. rewrite Rminus_diag_eq by reflexivity.
  rewrite Rabs_R0, vz_0. lra.
Qed.

(** the error is at most n/d *)
Definition er_le (o : option bnd) (n d : Z) : bool :=
  match o with Some b => (er b * d <=? n * sc)%Z | None => false end.
Lemma er_le_ok F bs xs ts e n d : good_arith F -> all_ok bs xs ts -> (0 < d)%Z ->
  er_le (bound (bargs bs) e) n d = true ->
  Rabs (eval_fl F (args ts) e - eval (args xs) e) <= IZR n / IZR d.
Proof.
  intros G H Hd. unfold er_le. destruct (bound (bargs bs) e) as [b|] eqn:E; [|discriminate]. intros HB.
  apply Z.leb_le in HB.
  destruct (bound_sound F G _ _ _ (all_ok_args _ _ _ H) e b E) as [_ K].
  eapply Rle_trans; [exact K|]. unfold vz. pose proof sc_pos. assert (0 < IZR d) by (apply IZR_lt; exact Hd).
  apply Rmult_le_reg_r with (IZR sc * IZR d); [apply Rmult_lt_0_compat; lra|].
  replace (IZR (er b) / IZR sc * (IZR sc * IZR d)) with (IZR (er b * d)) by (rewrite mult_IZR; field; lra).
  replace (IZR n / IZR d * (IZR sc * IZR d)) with (IZR (n * sc)) by (rewrite mult_IZR; field; lra).
  apply IZR_le. exact HB.
Qed.

Definition obind {A B} (o : option A) (f : A -> option B) : option B :=
  match o with Some a => f a | None => None end.

(** ** The analysis of the Eotvos correction; [S] bounds the sampling rate *)
Definition bound_a : bnd := Bd (6378137 * sc) (6378137 * sc) 0.
Definition bound_b : bnd := Bd (63567523142 * sc / 10000) (63567523142 * sc / 10000 + 1) (sc / 2 ^ 29).
Definition eot_bnds (S : Z) : option (list bnd) :=
  let s := sym S 1 0 in
  let d f y := bound (bargs [y; y; y; s]) f in
  obind (bound (bargs [sym 90 1 0]) deg_fx) (fun la =>
  obind (bound (bargs [sym 360 1 0]) deg_fx) (fun ln =>
  let h := sym 1000 1 0 in
  obind (d diff1_fx la) (fun la1 => obind (d diff2_fx la) (fun la2 =>
  obind (d diff1_fx ln) (fun ln1 => obind (d diff2_fx ln) (fun ln2 =>
  obind (d diff1_fx h) (fun h1 => obind (d diff2_fx h) (fun h2 =>
  Some [bound_a; bound_b; la; sym 1 100000 (er la1); sym 1 100000 (er la2);
        sym 1 10000 (er ln1); sym 1 1000 (er ln2); h; sym 10 1 (er h1); sym 10 1 (er h2)])))))))).
Definition eot_check (S n d : Z) : bool :=
  match eot_bnds S with Some bs => er_le (bound (bargs bs) eotvos_fx) n d | None => false end.

Lemma eot_bnds_inv S bs : eot_bnds S = Some bs -> exists la ln la1 la2 ln1 ln2 h1 h2,
  bound (bargs [sym 90 1 0]) deg_fx = Some la /\ bound (bargs [sym 360 1 0]) deg_fx = Some ln /\
  bound (bargs [la; la; la; sym S 1 0]) diff1_fx = Some la1 /\
  bound (bargs [la; la; la; sym S 1 0]) diff2_fx = Some la2 /\
  bound (bargs [ln; ln; ln; sym S 1 0]) diff1_fx = Some ln1 /\
  bound (bargs [ln; ln; ln; sym S 1 0]) diff2_fx = Some ln2 /\
  bound (bargs [sym 1000 1 0; sym 1000 1 0; sym 1000 1 0; sym S 1 0]) diff1_fx = Some h1 /\
  bound (bargs [sym 1000 1 0; sym 1000 1 0; sym 1000 1 0; sym S 1 0]) diff2_fx = Some h2 /\
  bs = [bound_a; bound_b; la; sym 1 100000 (er la1); sym 1 100000 (er la2);
        sym 1 10000 (er ln1); sym 1 1000 (er ln2); sym 1000 1 0; sym 10 1 (er h1); sym 10 1 (er h2)].
Proof.
  unfold eot_bnds. cbv zeta.
  generalize (sym 90 1 0), (sym 360 1 0), (sym 1000 1 0), (sym S 1 0), bound_a, bound_b. intros b1 b2 b3 b4 b5 b6.
  destruct (bound (bargs [b1]) deg_fx) as [la|]; cbn [obind]; [|discriminate].
  destruct (bound (bargs [b2]) deg_fx) as [ln|]; cbn [obind]; [|discriminate].
  destruct (bound (bargs [la; la; la; b4]) diff1_fx) as [la1|] eqn:E1; cbn [obind]; [|discriminate].
  destruct (bound (bargs [la; la; la; b4]) diff2_fx) as [la2|] eqn:E2; cbn [obind]; [|discriminate].
  destruct (bound (bargs [ln; ln; ln; b4]) diff1_fx) as [ln1|] eqn:E3; cbn [obind]; [|discriminate].
  destruct (bound (bargs [ln; ln; ln; b4]) diff2_fx) as [ln2|] eqn:E4; cbn [obind]; [|discriminate].
  destruct (bound (bargs [b3; b3; b3; b4]) diff1_fx) as [h1|] eqn:E5; cbn [obind]; [|discriminate].
  destruct (bound (bargs [b3; b3; b3; b4]) diff2_fx) as [h2|] eqn:E6; cbn [obind]; [|discriminate].
  intros H. exists la, ln, la1, la2, ln1, ln2, h1, h2. repeat split; try assumption. congruence.
Qed.
(** The size of the correction is at most [m] mGal. *)
Definition eot_mag (S m : Z) : bool :=
  match eot_bnds S with
  | Some bs => match bound (bargs bs) eotvos_fx with Some c => (mag c <=? m * sc)%Z | None => false end
  | None => false
  end.
