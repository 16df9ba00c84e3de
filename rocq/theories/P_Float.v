(** C99: the corrections for latitude, height and motion in double precision. *)
From Coq Require Import List ZArith QArith Qreals Reals Lia Lra Bool.
From Verif Require Import M_Py S_Base L_Base M_Np M_Corr L_Corr M_Float S_Round L_Round L_Float.
Import ListNotations.
Open Scope R_scope.

(** C99: the expressions are the formulas of M_Corr.v. *)
Lemma wgs_formula lat : eval (args [lat]) wgs_fx = wgs_grav lat.
Proof.
  unfold wgs_fx, wgs_grav, deg2rad. cbn [eval args nth].
  replace (sin (lat * (PI / 180)) ^ 2) with (sin (lat * (PI / 180)) * sin (lat * (PI / 180))) by ring.
  unfold Q2R. cbn [Qnum Qden].
  repeat f_equal; lra.
Qed.
Lemma c8_Q : Q2R 7.2125e-8 = 7.2125e-8.
Proof.
  let v := eval vm_compute in (7.2125e-8)%Q in change (7.2125e-8)%Q with v.
  unfold Q2R. cbn [Qnum Qden]. lra.
Qed.
Lemma free_air_formula lat ht fw : eval (args [lat; ht]) (free_air_fx fw) = free_air_second_order lat ht fw.
Proof.
  unfold free_air_fx, free_air_second_order, deg2rad. cbv zeta.
  destruct fw; cbn [eval args nth]; rewrite c8_Q; unfold Q2R; cbn [Qnum Qden];
  generalize (sin (lat * (PI / 180))); generalize (7.2125e-8); intros; lra.
Qed.

Lemma We_Q : Q2R 0.00007292115 = We.
Proof. unfold Q2R, We. cbn [Qnum Qden]. lra. Qed.

Lemma eotvos_formula a b latr dlat ddlat dlon ddlon ht dht ddht :
  eval (args [a; b; latr; dlat; ddlat; dlon; ddlon; ht; dht; ddht]) eotvos_fx
  = eotvos_point a b latr dlat ddlat dlon ddlon ht dht ddht.
Proof.
  unfold eotvos_fx. cbn [eval args nth fcross fvscale fvadd snd fst]. rewrite We_Q. reflexivity.
Qed.

(** C99: theoretical gravity is computed to better than a billionth of a mGal. *)
Theorem C99_wgs_grav : forall F lat,
  double_arith F -> Rabs lat <= 90 ->
  Rabs (wgs_grav_fl F lat - wgs_grav lat) <= 7 / 10000000000.
Proof.
  intros F lat G H. rewrite <- wgs_formula.
  apply (er_le_ok _ [sym 90 1 0] [lat] [lat] wgs_fx 7 10000000000).
  - apply double_good; assumption.
  - split; [|exact Logic.I]. apply ok_exact; [reflexivity|]. lra.
  - reflexivity.
  - vm_compute. reflexivity.
Qed.
Print Assumptions C99_wgs_grav.

(** C99: and the free-air correction, for heights up to 10 km. *)
Theorem C99_free_air : forall F lat ht fw,
  double_arith F -> Rabs lat <= 90 -> Rabs ht <= 10000 ->
  Rabs (free_air_second_order_fl F lat ht fw - free_air_second_order lat ht fw)
  <= 2 / 1000000000000.
Proof.
  intros F lat ht fw G H Hh. rewrite <- free_air_formula.
  apply (er_le_ok _ [sym 90 1 0; sym 10000 1 0] [lat; ht] [lat; ht] (free_air_fx fw) 2 1000000000000).
  - apply double_good; assumption.
  - split; [apply ok_exact; [reflexivity|]; lra|]. split; [|exact Logic.I].
    apply ok_exact; [reflexivity|]. lra.
  - reflexivity.
  - destruct fw; vm_compute; reflexivity.
Qed.
Print Assumptions C99_free_air.

(** ** The Eotvos correction *)
Lemma ends_repeated (f : nat -> R) n : (3 <= n)%nat ->
  (let E := map (fun k => f (S k)) (seq 0 (n - 2)) in
   match E with [] => Raise IndexError | e0 :: _ => Ok (e0 :: E ++ [last E 0]) end)
  = Ok (map (fun k => f (clamp k n)) (seq 0 n)).
Proof.
  intros Hn. cbv zeta. set (E := map _ (seq 0 (n - 2))).
  assert (LE : length E = (n - 2)%nat) by (unfold E; rewrite map_length, seq_length; reflexivity).
  assert (HL : last E 0 = f (n - 2)%nat) by (unfold E; rewrite last_map_seq by lia; f_equal; lia).
  assert (HN : forall k, (k < n - 2)%nat -> nth k E 0 = f (S k)).
  { intros k Hk. unfold E. rewrite nth_map_seq by exact Hk. reflexivity. }
  clearbody E. destruct E as [|e0 E]; [cbn in LE; lia|]. f_equal.
  assert (H0 : e0 = f 1%nat) by (apply (HN 0%nat); lia).
  apply (list_eq_nth _ _ _ 0).
  - rewrite map_length, seq_length. cbn [length] in *. rewrite app_length. cbn [length]. lia.
  - intros k Hk. cbn [length] in Hk. rewrite app_length in Hk. cbn [length] in Hk, LE.
    rewrite nth_map_seq by lia. destruct k as [|k]; cbn [nth].
    + rewrite H0. f_equal. unfold clamp. lia.
    + destruct (Nat.lt_ge_cases k (n - 2)) as [Hk2|Hk2].
      * rewrite app_nth1 by (cbn [length]; lia). rewrite HN by exact Hk2. f_equal. unfold clamp. lia.
      * rewrite app_nth2 by (cbn [length]; lia). replace (k - length (e0 :: E))%nat with 0%nat by (cbn [length]; lia).
        cbn [nth]. rewrite HL. f_equal. unfold clamp. lia.
Qed.

Lemma bound_a_ok : ok bound_a 6378137 6378137.
Proof.
  unfold bound_a. split; cbn [lo hi er]; [rewrite vz_sc; lra|].
  rewrite Rminus_diag_eq by reflexivity. rewrite Rabs_R0, vz_0. lra.
Qed.

Lemma bound_b_ok : ok bound_b 6356752.3142 (b64 6356752.3142).
Proof.
  assert (E : vz (63567523142 * sc / 10000) <= 6356752.3142 <= vz (63567523142 * sc / 10000 + 1)).
  { unfold vz. destruct (IZR_div (63567523142 * sc) 10000 eq_refl) as [H1 H2]. pose proof sc_pos.
    rewrite plus_IZR. assert (E0 : 6356752.3142 = IZR (63567523142 * sc) / IZR 10000 / IZR sc).
    { rewrite mult_IZR. transitivity (63567523142 / 10000); [lra|]. field. lra. }
    rewrite E0.
    split; apply Rmult_le_compat_r; try (left; apply Rinv_0_lt_compat, sc_pos); lra. }
  split; cbn [bound_b lo hi er]; [exact E|].
  eapply Rle_trans; [apply (proj2 b64_good)|].
  - right. rewrite Rabs_pos_eq; lra.
  - rewrite Rabs_pos_eq by lra. rewrite u64_val. unfold vz.
    let v := eval vm_compute in (sc / 2 ^ 29)%Z in change (sc / 2 ^ 29)%Z with v.
    let v := eval vm_compute in sc in change sc with v. lra.
Qed.

Lemma diffs_ok F b y yt s st samp f c : good_arith F ->
  (forall i : nat, ok b (y i) (yt i)) -> ok s samp st ->
  bound (bargs [b; b; b; s]) f = Some c -> forall i j k,
  Rabs (eval_fl F (args [yt i; yt j; yt k; st]) f - eval (args [y i; y j; y k; samp]) f) <= vz (er c).
Proof.
  intros G H Hs E i j k.
  refine (proj2 (bound_sound F G (bargs [b; b; b; s]) _ _ (all_ok_args _ _ _ _) f c E)).
  cbn [all_ok]. auto.
Qed.

Lemma eot_point_err F bs n d a b latr dlat ddlat dlon ddlon ht dht ddht ts : good_arith F ->
  all_ok bs [a; b; latr; dlat; ddlat; dlon; ddlon; ht; dht; ddht] ts -> (0 < d)%Z ->
  er_le (bound (bargs bs) eotvos_fx) n d = true ->
  Rabs (eval_fl F (args ts) eotvos_fx - eotvos_point a b latr dlat ddlat dlon ddlon ht dht ddht) <= IZR n / IZR d.
Proof. intros G H Hd HC. rewrite <- eotvos_formula. exact (er_le_ok F bs _ ts eotvos_fx n d G H Hd HC). Qed.

Lemma diff1_formula p q r samp : eval (args [p; q; r; samp]) diff1_fx = (r - p) * (samp / 2).
Proof. reflexivity. Qed.
Lemma diff2_formula p q r samp : eval (args [p; q; r; samp]) diff2_fx = (p - 2 * q + r) * samp ^ 2.
Proof. cbn [diff2_fx eval args nth]. ring. Qed.
Lemma deg_formula l i : eval (args [nth i l 0]) deg_fx = nth i (map deg2rad l) 0.
Proof.
  cbn [deg_fx eval args nth]. replace 0 with (deg2rad 0) at 2 by (unfold deg2rad; ring).
  rewrite map_nth. reflexivity.
Qed.

Opaque eval eval_fl bound eotvos_fx eotvos_point.
Lemma eotvos_all_ok F S bs lon lat ht samp k :
  good_arith F -> eot_bnds S = Some bs -> 0 <= samp <= IZR S ->
  length lon = length lat -> length ht = length lat -> (0 < k < length lat - 1)%nat ->
  sailed samp (length lat) (fun i => nth i lon 0) (fun i => nth i lat 0) (fun i => nth i ht 0) ->
  let f n (y : nat -> R) := (y (n + 1)%nat - y (n - 1)%nat) * (samp / 2) in
  let g n (y : nat -> R) := (y (n - 1)%nat - 2 * y n + y (n + 1)%nat) * samp ^ 2 in
  let latr i := nth i (map deg2rad lat) 0 in let lonr i := nth i (map deg2rad lon) 0 in
  let h i := nth i ht 0 in
  all_ok bs [6378137; 6356752.3142; latr k; f k latr; g k latr; f k lonr; g k lonr; h k; f k h; g k h]
    (eotvos_args_fl F lon lat ht samp 6378137 (b64 6356752.3142) k).
Proof.
  intros G EB HS H1 H2 Hk [HR HM]. cbv zeta beta.
  destruct (eot_bnds_inv S bs EB) as (la & ln & la1 & la2 & ln1 & ln2 & h1 & h2 &
    Ela & Eln & Ela1 & Ela2 & Eln1 & Eln2 & Eh1 & Eh2 & ->). clear EB.
  assert (Hs : ok (sym S 1 0) samp samp).
  { apply ok_exact; [reflexivity|]. rewrite Rabs_pos_eq by lra. lra. }
  assert (O0 : forall q, (0 <= q) -> Rabs 0 <= q) by (intros; rewrite Rabs_R0; assumption).
  assert (Hla : forall i, ok la (nth i (map deg2rad lat) 0) (eval_fl F (args [nth i lat 0]) deg_fx)).
  { intros i. replace (nth i (map deg2rad lat) 0) with (eval (args [nth i lat 0]) deg_fx).
    - apply (bound_sound F G (bargs [sym 90 1 0])); [|exact Ela]. apply all_ok_args. split; [|exact Logic.I].
      apply ok_exact; [reflexivity|]. destruct (Nat.lt_ge_cases i (length lat)) as [Hi|Hi].
      + destruct (HR i Hi) as [K _]. lra.
      + rewrite nth_overflow by exact Hi. apply O0. lra.
    - apply deg_formula. }
  assert (Hln : forall i, ok ln (nth i (map deg2rad lon) 0) (eval_fl F (args [nth i lon 0]) deg_fx)).
  { intros i. replace (nth i (map deg2rad lon) 0) with (eval (args [nth i lon 0]) deg_fx).
    - apply (bound_sound F G (bargs [sym 360 1 0])); [|exact Eln]. apply all_ok_args. split; [|exact Logic.I].
      apply ok_exact; [reflexivity|]. destruct (Nat.lt_ge_cases i (length lat)) as [Hi|Hi].
      + destruct (HR i Hi) as [_ [K _]]. lra.
      + rewrite nth_overflow by lia. apply O0. lra.
    - apply deg_formula. }
  assert (Hh : forall i, ok (sym 1000 1 0) (nth i ht 0) (nth i ht 0)).
  { intros i. apply ok_exact; [reflexivity|]. destruct (Nat.lt_ge_cases i (length lat)) as [Hi|Hi].
    + destruct (HR i Hi) as [_ [_ K]]. lra.
    + rewrite nth_overflow by lia. apply O0. lra. }
  assert (E1 : forall y : nat -> R, (y (k + 1)%nat - y (k - 1)%nat) * (samp / 2)
    = eval (args [y (k - 1)%nat; y k; y (k + 1)%nat; samp]) diff1_fx) by (intros; symmetry; apply diff1_formula).
  assert (E2 : forall y : nat -> R, (y (k - 1)%nat - 2 * y k + y (k + 1)%nat) * samp ^ 2
    = eval (args [y (k - 1)%nat; y k; y (k + 1)%nat; samp]) diff2_fx) by (intros; symmetry; apply diff2_formula).
  assert (Edeg : forall l i, nth i (map deg2rad l) 0 = nth i l 0 * (PI / 180)).
  { intros l i. replace 0 with (deg2rad 0) at 1 by (unfold deg2rad; ring). rewrite map_nth. reflexivity. }
  destruct (HM k Hk) as (M1 & M2 & M3 & M4 & M5 & M6). unfold rate, curv in *.
  assert (S1 : forall n d (y yt : nat -> R) b c, (0 < d)%Z -> (forall i, ok b (y i) (yt i)) ->
    bound (bargs [b; b; b; sym S 1 0]) diff1_fx = Some c ->
    Rabs ((y (k + 1)%nat - y (k - 1)%nat) * (samp / 2)) <= IZR n / IZR d ->
    ok (sym n d (er c)) ((y (k + 1)%nat - y (k - 1)%nat) * (samp / 2))
       (eval_fl F (args [yt (k - 1)%nat; yt k; yt (k + 1)%nat; samp]) diff1_fx)).
  { intros n' d' y yt b c Hd' Hy Hc Hm. apply ok_sym; [exact Hd'|exact Hm|]. rewrite E1.
    exact (diffs_ok F b y yt (sym S 1 0) samp samp diff1_fx c G Hy Hs Hc _ _ _). }
  assert (S2 : forall n d (y yt : nat -> R) b c, (0 < d)%Z -> (forall i, ok b (y i) (yt i)) ->
    bound (bargs [b; b; b; sym S 1 0]) diff2_fx = Some c ->
    Rabs ((y (k - 1)%nat - 2 * y k + y (k + 1)%nat) * samp ^ 2) <= IZR n / IZR d ->
    ok (sym n d (er c)) ((y (k - 1)%nat - 2 * y k + y (k + 1)%nat) * samp ^ 2)
       (eval_fl F (args [yt (k - 1)%nat; yt k; yt (k + 1)%nat; samp]) diff2_fx)).
  { intros n' d' y yt b c Hd' Hy Hc Hm. apply ok_sym; [exact Hd'|exact Hm|]. rewrite E2.
    exact (diffs_ok F b y yt (sym S 1 0) samp samp diff2_fx c G Hy Hs Hc _ _ _). }
  unfold eotvos_args_fl. cbv beta zeta. cbn [all_ok].
  split; [exact bound_a_ok|].
  split; [exact bound_b_ok|]. split; [apply Hla|].
  split; [apply (S1 1%Z 100000%Z (fun i => nth i (map deg2rad lat) 0) (fun i => eval_fl F (args [nth i lat 0]) deg_fx) la la1);
    [reflexivity|exact Hla|exact Ela1|]|].
  { cbv beta. rewrite !Edeg. eapply Rle_trans; [|exact M1]. right. f_equal. lra. }
  split; [apply (S2 1%Z 100000%Z (fun i => nth i (map deg2rad lat) 0) (fun i => eval_fl F (args [nth i lat 0]) deg_fx) la la2);
    [reflexivity|exact Hla|exact Ela2|]|].
  { cbv beta. rewrite !Edeg. eapply Rle_trans; [|exact M2]. right. f_equal. lra. }
  split; [apply (S1 1%Z 10000%Z (fun i => nth i (map deg2rad lon) 0) (fun i => eval_fl F (args [nth i lon 0]) deg_fx) ln ln1);
    [reflexivity|exact Hln|exact Eln1|]|].
  { cbv beta. rewrite !Edeg. eapply Rle_trans; [|exact M3]. right. f_equal. lra. }
  split; [apply (S2 1%Z 1000%Z (fun i => nth i (map deg2rad lon) 0) (fun i => eval_fl F (args [nth i lon 0]) deg_fx) ln ln2);
    [reflexivity|exact Hln|exact Eln2|]|].
  { cbv beta. rewrite !Edeg. eapply Rle_trans; [|exact M4]. right. f_equal. lra. }
  split; [apply Hh|].
  split; [apply (S1 10%Z 1%Z (fun i => nth i ht 0) (fun i => nth i ht 0) (sym 1000 1 0) h1);
    [reflexivity|exact Hh|exact Eh1|]|].
  { cbv beta. eapply Rle_trans; [|eapply Rle_trans; [exact M5|lra]]. right. f_equal. lra. }
  split; [apply (S2 10%Z 1%Z (fun i => nth i ht 0) (fun i => nth i ht 0) (sym 1000 1 0) h2);
    [reflexivity|exact Hh|exact Eh2|]|].
  { cbv beta. eapply Rle_trans; [|eapply Rle_trans; [exact M6|lra]]. right. f_equal. }
  exact Logic.I.
Qed.

Lemma eotvos_at_err F S n d lon lat ht samp k :
  good_arith F -> rnd F = b64 -> (0 < d)%Z -> eot_check S n d = true -> 0 <= samp <= IZR S ->
  length lon = length lat -> length ht = length lat -> (0 < k < length lat - 1)%nat ->
  sailed samp (length lat) (fun i => nth i lon 0) (fun i => nth i lat 0) (fun i => nth i ht 0) ->
  Rabs (eotvos_at_fl F lon lat ht samp 6378137 (b64 6356752.3142) k
        - eotvos_at lon lat ht samp 6378137 6356752.3142 k) <= IZR n / IZR d.
Proof.
  intros G GB Hd HC HS H1 H2 Hk HSail. unfold eot_check in HC.
  destruct (eot_bnds S) as [bs|] eqn:EB; [|discriminate].
  unfold eotvos_at, eotvos_at_fl. cbv zeta.
  apply (eot_point_err F bs n d _ _ _ _ _ _ _ _ _ _ _ G); [|exact Hd|exact HC].
  exact (eotvos_all_ok F S bs lon lat ht samp k G EB HS H1 H2 Hk HSail).
Qed.

(** A bound for the size of the correction. *)
Lemma eotvos_at_mag F S m lon lat ht samp k :
  good_arith F -> eot_mag S m = true -> 0 <= samp <= IZR S ->
  length lon = length lat -> length ht = length lat -> (0 < k < length lat - 1)%nat ->
  sailed samp (length lat) (fun i => nth i lon 0) (fun i => nth i lat 0) (fun i => nth i ht 0) ->
  Rabs (eotvos_at lon lat ht samp 6378137 6356752.3142 k) <= IZR m.
Proof.
  intros G HC HS H1 H2 Hk HSail. unfold eot_mag in HC.
  destruct (eot_bnds S) as [bs|] eqn:EB; [|discriminate].
  unfold eotvos_at. cbv zeta.
  pose proof (eotvos_all_ok F S bs lon lat ht samp k G EB HS H1 H2 Hk HSail) as A. cbv zeta in A.
  destruct (bound (bargs bs) eotvos_fx) as [c|] eqn:Ec; [|discriminate].
  pose proof (bound_sound F G _ _ _ (all_ok_args _ _ _ A) _ _ Ec) as [K _].
  rewrite eotvos_formula in K. apply Z.leb_le in HC. unfold mag in HC.
  assert (U1 : vz (hi c) <= IZR m).
  { rewrite <- (vz_sc m). apply vz_le. lia. }
  assert (U2 : - IZR m <= vz (lo c)).
  { rewrite <- (vz_sc m). replace (- vz (m * sc)) with (vz (- (m * sc))) by (unfold vz; rewrite opp_IZR; lra).
    apply vz_le. lia. }
  apply Rabs_le. lra.
Qed.

Lemma eotvos_full_err F S n d lon lat ht samp :
  double_arith F ->
  (0 < d)%Z -> eot_check S n d = true -> 0 <= samp <= IZR S ->
  length lon = length lat -> length ht = length lat -> (3 <= length lat)%nat ->
  sailed samp (length lat) (fun i => nth i lon 0) (fun i => nth i lat 0) (fun i => nth i ht 0) ->
  exists e et, eotvos_full lon lat ht samp 6378137 6356752.3142 = Ok e /\
    eotvos_full_fl F lon lat ht samp 6378137 (b64 6356752.3142) = Ok et /\
    length e = length lat /\ length et = length lat /\
    forall k, Rabs (nth k et 0 - nth k e 0) <= IZR n / IZR d.
Proof.
  intros G Hd HC HS H1 H2 H3 HSail.
  set (f := fun k => eotvos_at_fl F lon lat ht samp 6378137 (b64 6356752.3142) k).
  exists (map (fun k => eotvos_at lon lat ht samp 6378137 6356752.3142 (clamp k (length lat))) (seq 0 (length lat))),
         (map (fun k => f (clamp k (length lat))) (seq 0 (length lat))).
  split; [apply eotvos_full_eq; assumption|]. split.
  { unfold eotvos_full_fl. rewrite H1, H2, Nat.eqb_refl. cbn [andb negb].
    exact (ends_repeated f (length lat) H3). }
  split; [rewrite map_length, seq_length; reflexivity|].
  split; [rewrite map_length, seq_length; reflexivity|].
  intros k. destruct (Nat.lt_ge_cases k (length lat)) as [Hk|Hk].
  - rewrite !nth_map_seq by exact Hk. unfold f.
    apply eotvos_at_err with (S := S); try assumption; [apply double_good; assumption|apply G|].
    unfold clamp. lia.
  - rewrite !nth_overflow by (rewrite map_length, seq_length; exact Hk).
    rewrite Rminus_0_r, Rabs_R0. 
    assert (K : Rabs 0 <= IZR n / IZR d); [|rewrite Rabs_R0 in K; exact K].
    eapply Rle_trans; [|apply (eotvos_at_err F S n d lon lat ht samp 1); try assumption;
      [apply double_good; assumption|apply G|lia]].
    rewrite Rabs_R0. apply Rabs_pos.
Qed.

(** C99: at up to one sample per second the Eotvos correction of a sailed track is computed to
    better than 5e-5 mGal, and at up to ten samples per second to better than 5e-3 mGal. *)
Theorem C99_eotvos : forall F lon lat ht samp, double_arith F ->
  length lon = length lat -> length ht = length lat -> (3 <= length lat)%nat -> 0 <= samp <= 10 ->
  sailed samp (length lat) (fun i => nth i lon 0) (fun i => nth i lat 0) (fun i => nth i ht 0) ->
  exists e et, eotvos_full lon lat ht samp 6378137 6356752.3142 = Ok e /\
    eotvos_full_fl F lon lat ht samp 6378137 (b64 6356752.3142) = Ok et /\
    length e = length lat /\ length et = length lat /\
    (forall k, Rabs (nth k et 0 - nth k e 0) <= 5 / 1000) /\
    (samp <= 1 -> forall k, Rabs (nth k et 0 - nth k e 0) <= 5 / 100000).
Proof.
  intros F lon lat ht samp G H1 H2 H3 HS HSail.
  destruct (eotvos_full_err F 10 5 1000 lon lat ht samp) as (e & et & He & Het & L1 & L2 & HE);
    try assumption; [reflexivity|vm_compute; reflexivity|].
  exists e, et. split; [exact He|]. split; [exact Het|]. split; [exact L1|]. split; [exact L2|].
  split; [exact HE|]. intros HS1.
  destruct (eotvos_full_err F 1 5 100000 lon lat ht samp) as (e' & et' & He' & Het' & _ & _ & HE');
    try assumption; [reflexivity|vm_compute; reflexivity|lra|].
  assert (Q1 : e' = e) by congruence. assert (Q2 : et' = et) by congruence. subst. exact HE'.
Qed.
Print Assumptions C99_eotvos.

(** The correctly rounded functions are good ones; a ship that keeps its place has sailed. *)
Lemma rounded_good g : (forall x, Rabs (g x) <= 2) -> good_fun (fun x => b64 (g x)) g.
Proof.
  intros H x. specialize (H x). pose proof (Rabs_pos (g x)).
  destruct (Rle_dec (Rabs (g x)) 1) as [H1|H1].
  - eapply Rle_trans; [apply (proj1 b64_good)|]. pose proof eta64_small. rewrite u64_val. lra.
  - eapply Rle_trans; [apply (proj2 b64_good); right; lra|]. rewrite u64_val. lra.
Qed.

Lemma rounded_arc g : (forall x, Rabs (g x) <= 4) -> good_arc (fun x => b64 (g x)) g.
Proof.
  intros H x _. specialize (H x). pose proof (Rabs_pos (g x)).
  destruct (Rle_dec (Rabs (g x)) 1) as [H1|H1].
  - eapply Rle_trans; [apply (proj1 b64_good)|]. pose proof eta64_small. rewrite u64_val. lra.
  - eapply Rle_trans; [apply (proj2 b64_good); right; lra|]. rewrite u64_val. lra.
Qed.
Lemma rounded_pow : good_pow (fun x n => b64 (x ^ n)).
Proof.
  intros x n. eapply Rle_trans; [apply (proj1 b64_good)|]. pose proof (Rabs_pos (x ^ n)).
  apply Rplus_le_compat_r. apply Rmult_le_compat_r; [exact H|]. rewrite u64_val. lra.
Qed.
Definition rounded : farith :=
  {| rnd := b64; fsin := fun x => b64 (sin x); fcos := fun x => b64 (cos x); fatan := fun x => b64 (atan x);
     fasin := fun x => b64 (asin x); facos := fun x => b64 (acos x); fpow := fun x n => b64 (x ^ n) |}.
Lemma rounded_double : double_arith rounded.
Proof.
  pose proof PI_4 as P4. pose proof PI_RGT_0 as P0. unfold double_arith, rounded. cbn [rnd fsin fcos fatan fasin facos fpow].
  split; [reflexivity|].
  split; [apply rounded_good; intros x; apply Rabs_le; pose proof (SIN_bound x); lra|].
  split; [apply rounded_good; intros x; apply Rabs_le; pose proof (COS_bound x); lra|].
  split; [apply rounded_good; intros x; apply Rabs_le; pose proof (atan_bound x); lra|].
  split; [apply rounded_arc; intros x; apply Rabs_le; pose proof (asin_bound x); lra|].
  split; [apply rounded_arc; intros x; apply Rabs_le; pose proof (acos_bound x); lra|].
  apply rounded_pow.
Qed.

Example C99_case : double_arith rounded /\
  sailed 1 4 (fun i => nth i [10; 10.0001; 10.0002; 10.0003] 0) (fun i => nth i [45; 45; 45.0001; 45.0001] 0)
             (fun i => nth i [1; 2; 1; 0] 0).
Proof.
  split; [exact rounded_double|].
  pose proof PI_4 as P4. pose proof PI_RGT_0 as P0.
  split.
  - intros k Hk. destruct k as [|[|[|[|k]]]]; [| | | |lia]; cbn [nth]; repeat split; apply Rabs_le; lra.
  - intros k Hk. assert (k = 1 \/ k = 2)%nat as [-> | ->] by lia; unfold rate, curv; cbn [nth Nat.add Nat.sub];
    repeat split; apply Rabs_le; lra.
Qed.
