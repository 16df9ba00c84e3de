(** Property C111: the arguments that the numerical functions refuse, and the exception each time;
    everything else returns a value. *)
From Coq Require Import ZArith Ascii String Bool Reals Arith Lia Lra List.
From Verif Require Import M_Py M_Np M_Cursor M_Cal M_Fft M_Four M_Crust M_Therm M_Tide M_Corr M_Nav M_Up M_Gauss M_CC M_Status
  S_Base S_CC S_Status S_Args L_Base L_Np L_Fft L_Four L_Status L_Cursor L_CC L_Therm L_Up P_Gauss P_Therm P_Status.
Import ListNotations.
Local Notation len := List.length.
Open Scope R_scope.

Lemma raise_iff A (e1 e2 : exn) : @Raise A e1 = Raise e2 <-> e2 = e1.
Proof. split; intros H; [injection H as H; auto|subst; reflexivity]. Qed.

Lemma ok_raise A (a : A) e : Ok a = Raise e <-> False.
Proof. split; [discriminate|tauto]. Qed.

Theorem C111_crustal_thickness : forall ur nx ny dx dy zdown rho wlarge wsmall back e,
  crustal_thickness_2D ur nx ny dx dy zdown rho wlarge wsmall back = Raise e <->
  crust_refuses (len ur) nx ny dx rho wlarge wsmall e.
Proof.
  intros. unfold crustal_thickness_2D, crust_refuses. cbv zeta.
  destruct (Rlt_dec wsmall wlarge) as [Hw|Hw]; cbn [negb].
  2:{ rewrite raise_iff. split; [intros ->; left; split; [reflexivity|lra]|intros [[-> _]|[[_ [H _]]|[_ [H _]]]]; [reflexivity|lra|lra]]. }
  assert (Hz : forall P, P -> (wlarge = 0 \/ wsmall = 0 \/ nx = 0%nat \/ ny = 0%nat \/ rho = 0 \/ dx = 0) ->
    (@Raise (list Cx * option (list Cx)) ZeroDivisionError = Raise e <->
     (e = AssertionError /\ wlarge <= wsmall) \/
     (e = ZeroDivisionError /\ wsmall < wlarge /\ (wlarge = 0 \/ wsmall = 0 \/ nx = 0%nat \/ ny = 0%nat \/ rho = 0 \/ dx = 0)) \/
     (e = ValueError /\ wsmall < wlarge /\ ~ (wlarge = 0 \/ wsmall = 0 \/ nx = 0%nat \/ ny = 0%nat \/ rho = 0 \/ dx = 0) /\ len ur <> (nx * ny)%nat))).
  { intros P _ H. rewrite raise_iff. split; [intros ->; right; left; tauto|].
    intros [[_ H1]|[[H1 _]|[_ [_ [H1 _]]]]]; [lra|exact H1|tauto]. }
  destruct (Req_EM_T (wlarge * 1e5) 0) as [E1|E1]; [apply (Hz True I); left; lra|].
  destruct (Req_EM_T (wsmall * 1e5) 0) as [E2|E2]; [apply (Hz True I); right; left; lra|].
  destruct (Nat.eqb_spec (nx * ny) 0) as [E3|E3]; [apply (Hz True I); apply Nat.mul_eq_0 in E3; tauto|].
  destruct (Req_EM_T rho 0) as [E4|E4]; [apply (Hz True I); tauto|].
  destruct (Req_EM_T (dx * 1e5) 0) as [E5|E5]; [apply (Hz True I); right; right; right; right; right; lra|].
  assert (N : ~ (wlarge = 0 \/ wsmall = 0 \/ nx = 0%nat \/ ny = 0%nat \/ rho = 0 \/ dx = 0)).
  { intros [H|[H|[H|[H|[H|H]]]]]; [apply E1; rewrite H; lra|apply E2; rewrite H; lra|apply E3; rewrite H; reflexivity|
      apply E3; rewrite H; lia|tauto|apply E5; rewrite H; lra]. }
  rewrite map_length. destruct (Nat.eqb_spec (len ur) (nx * ny)) as [E6|E6]; cbn [negb].
  - assert (F : (e = AssertionError /\ wlarge <= wsmall) \/
     (e = ZeroDivisionError /\ wsmall < wlarge /\ (wlarge = 0 \/ wsmall = 0 \/ nx = 0%nat \/ ny = 0%nat \/ rho = 0 \/ dx = 0)) \/
     (e = ValueError /\ wsmall < wlarge /\ ~ (wlarge = 0 \/ wsmall = 0 \/ nx = 0%nat \/ ny = 0%nat \/ rho = 0 \/ dx = 0) /\ len ur <> (nx * ny)%nat) -> False).
    { intros [[_ H1]|[[_ [_ H1]]|[_ [_ [_ H1]]]]]; [lra|tauto|tauto]. }
    destruct back; cbn [negb]; rewrite ok_raise; tauto.
  - rewrite raise_iff. split; [intros ->; right; right; tauto|].
    intros [[_ H1]|[[_ [_ H1]]|[H1 _]]]; [lra|tauto|exact H1].
Qed.
Print Assumptions C111_crustal_thickness.

Theorem C111_thermal : forall x z T Ts u L Tm time z0 z1 dz rhom rhow a k e,
  (therm_halfspace x z u Tm time rhom rhow a k = Raise e <-> halfspace_refuses z rhom rhow e) /\
  (therm_Z_halfspace x T u Tm time rhom rhow a k = Raise e <-> Z_halfspace_refuses Tm rhom rhow e) /\
  (therm_plate x z u L Tm time rhom rhow a k = Raise e <-> plate_refuses z rhom rhow e) /\
  (therm_Z_plate x Ts u L Tm time z0 z1 dz rhom rhow a k = Raise e <-> Z_plate_refuses z0 z1 dz rhom rhow e).
Proof.
  intros. split; [|split; [|split]].
  - unfold therm_halfspace, halfspace_refuses. cbv zeta. destruct (Req_EM_T rhom rhow) as [Er|Er].
    + rewrite raise_iff. tauto.
    + destruct z; rewrite ?raise_iff, ?ok_raise; [tauto|]. split; [tauto|]. intros [[_ H]|[_ [_ H]]]; [tauto|discriminate].
  - unfold therm_Z_halfspace, Z_halfspace_refuses, To. cbv zeta. destruct (Req_EM_T Tm 0) as [Et|Et]; [rewrite raise_iff; tauto|].
    destruct (Req_EM_T rhom rhow) as [Er|Er]; rewrite ?raise_iff, ?ok_raise; tauto.
  - unfold therm_plate, plate_refuses. cbv zeta. destruct z as [|z9 z]; [rewrite raise_iff; tauto|].
    destruct (Req_EM_T rhom rhow) as [Er|Er]; rewrite ?raise_iff, ?ok_raise.
    + split; [intros ->; right; split; [reflexivity|split; [discriminate|exact Er]]|]. intros [[_ H]|[H _]]; [discriminate|exact H].
    + split; [tauto|]. intros [[_ H]|[_ [_ H]]]; [discriminate|tauto].
  - unfold therm_Z_plate, Z_plate_refuses. destruct (Req_EM_T dz 0) as [Ed|Ed]; [rewrite raise_iff; subst; tauto|].
    set (g := arange z0 z1 dz).
    assert (G : g = [] <-> (z1 - z0) / dz <= 0).
    { unfold g, arange. set (q := (z1 - z0) / dz).
      destruct (Rle_dec q 0) as [Hq|Hq].
      - split; [intros _; exact Hq|intros _].
        replace (Z.to_nat (- Int_part (- q))) with 0%nat; [reflexivity|].
        assert (0 <= Int_part (- q))%Z; [|lia].
        destruct (base_Int_part (- q)) as [_ B]. apply Z.lt_succ_r. apply lt_IZR. unfold Z.succ. rewrite plus_IZR. lra.
      - split; [|intros H; lra].
        assert (B : (Int_part (- q) < 0)%Z).
        { destruct (base_Int_part (- q)) as [B _]. apply lt_IZR. lra. }
        destruct (Z.to_nat (- Int_part (- q))) eqn:E; [lia|]. discriminate. }
    unfold therm_plate. cbv zeta. destruct g as [|g0 g'] eqn:Eg.
    { cbn [bind]. rewrite raise_iff. assert ((z1 - z0) / dz <= 0) by (apply G; reflexivity).
      split; [intros ->; right; left; tauto|]. intros [[_ H1]|[[H1 _]|[_ [_ [H1 _]]]]]; [tauto|exact H1|lra]. }
    assert (Hq : 0 < (z1 - z0) / dz) by (apply Rnot_le_lt; intros H; apply G in H; discriminate).
    destruct (Req_EM_T rhom rhow) as [Er|Er].
    { cbn [bind]. rewrite raise_iff. split; [intros ->; right; right; tauto|]. intros [[H1 _]|[[_ [_ H1]]|[H1 _]]]; [exact H1|lra|exact H1]. }
    cbn [bind fst].
    rewrite (mapM_Ok_map _ _ _ (fun Ti => map (fun j => match argmin (map (fun row => Rabs (nth j row 0 - Ti)) (map (plate_row k L Tm (map (therm_time time u) x)) (g0 :: g'))) with Ok i => nth i (g0 :: g') 0 | Raise _ => 0 end) (seq 0 (len x)))).
    + rewrite ok_raise. split; [tauto|]. intros [[_ H]|[[_ [_ H]]|[_ [_ [_ H]]]]]; [tauto|lra|tauto].
    + intros Ti _. apply mapM_Ok_map. intros j _.
      set (col := map (fun row => Rabs (nth j row 0 - Ti)) _).
      assert (Lc : len col = len (g0 :: g')) by (unfold col; rewrite !map_length; reflexivity).
      destruct (argmin_ok col) as [i Ei]; [intros E; rewrite E in Lc; discriminate|].
      rewrite Ei. cbn [bind]. pose proof (argmin_spec _ _ Ei) as [Hi _]. unfold getr. rewrite (nth_error_nth' _ 0) by lia. reflexivity.
Qed.
Print Assumptions C111_thermal.

Theorem C111_tide : forall lon lat times alt back e,
  longman_tide_prediction lon lat times alt back = Raise e <->
  tide_refuses (len lon) (len lat) times (match alt with Alt _ => None | Alts hs => Some (len hs) end) e.
Proof.
  intros. unfold longman_tide_prediction, tide_refuses.
  destruct (Nat.eqb_spec (len lon) (len lat)) as [E1|E1]; cbn [negb].
  2:{ rewrite raise_iff. split; [intros ->; left; tauto|]. intros [[H _]|[[_ [H _]]|[_ [H _]]]]; [exact H|tauto|tauto]. }
  destruct (Nat.eqb_spec (len lon) (len times)) as [E2|E2]; cbn [negb].
  2:{ rewrite raise_iff. split; [intros ->; left; tauto|]. intros [[H _]|[[_ [_ [H _]]]|[_ [_ [H _]]]]]; [exact H|tauto|tauto]. }
  assert (T1 : forall t, utcoffset t = None -> tide_time t = Raise TypeError).
  { intros t H. unfold tide_time, convert_datetime_tidetime, sub_us. rewrite H. reflexivity. }
  assert (T2 : forall t, utcoffset t <> None -> exists p, tide_time t = Ok p).
  { intros t H. unfold tide_time, convert_datetime_tidetime, sub_us. destruct (utcoffset t); [|tauto]. cbn [utcoffset origin_time bind]. eexists. reflexivity. }
  assert (M : (exists t, In t times /\ utcoffset t = None) /\ mapM tide_time times = Raise TypeError \/
              (forall t, In t times -> utcoffset t <> None) /\ exists l, mapM tide_time times = Ok l).
  { clear - T1 T2. induction times as [|t ts IH].
    - right. split; [intros t []|]. exists []. reflexivity.
    - cbn [mapM]. destruct (utcoffset t) eqn:Eo.
      + destruct (T2 t) as [p Ep]; [congruence|]. rewrite Ep. cbn [bind].
        destruct IH as [[[t' [Hi Ht]] ->]|[Ha [l ->]]].
        * left. split; [exists t'; split; [right; exact Hi|exact Ht]|reflexivity].
        * right. split; [|eexists; reflexivity]. intros t' [<-|H]; [congruence|apply Ha; exact H].
      + left. rewrite (T1 t Eo). split; [exists t; split; [left; reflexivity|exact Eo]|reflexivity]. }
  destruct M as [[Hn ->]|[Ha [l ->]]]; cbn [bind].
  - rewrite raise_iff. split; [intros ->; right; left; tauto|]. intros [[_ H]|[[H _]|[_ [_ [_ [H _]]]]]]; [tauto|exact H|].
    destruct Hn as [t [Hi Ht]]. exfalso. exact (H t Hi Ht).
  - assert (F : ~ (exists t, In t times /\ utcoffset t = None)) by (intros [t [Hi Ht]]; exact (Ha t Hi Ht)).
    assert (OkF : forall o : tide_result, (exists n, match alt with Alt _ => None | Alts hs => Some (len hs) end = Some n /\ n <> len lon) -> False ->
       Ok o = Raise e <-> False) by (intros; tauto).
    destruct alt as [h|hs]; cbn [bind].
    + destruct back; rewrite ok_raise; (split; [tauto|]); intros [[_ H]|[[_ [_ [_ H]]]|[_ [_ [_ [_ [n [H _]]]]]]]]; try tauto; discriminate.
    + destruct (Nat.eqb_spec (len hs) (len lon)) as [E3|E3]; cbn [bind].
      * destruct back; rewrite ok_raise; (split; [tauto|]); intros [[_ H]|[[_ [_ [_ H]]]|[_ [_ [_ [_ [n [H H']]]]]]]]; try tauto; injection H as <-; tauto.
      * rewrite raise_iff. split.
        -- intros ->. right. right. split; [reflexivity|]. split; [exact E1|]. split; [exact E2|]. split; [exact Ha|]. exists (len hs). tauto.
        -- intros [[_ H]|[[_ [_ [_ H]]]|[H _]]]; [tauto|tauto|exact H].
Qed.
Print Assumptions C111_tide.

Theorem C111_corrections : forall lon lat ht samp a b freq e,
  (eotvos_full lon lat ht samp a b = Raise e <-> eotvos_refuses (len lon) (len lat) (len ht) e) /\
  (latlon_to_EN lon lat freq = Raise e <-> velocity_refuses (len lon) (len lat) e).
Proof.
  intros. split.
  - unfold eotvos_full, eotvos_refuses.
    destruct (Nat.eqb_spec (len lon) (len lat)) as [E1|E1]; cbn [andb negb].
    2:{ rewrite raise_iff. split; [intros ->; left; tauto|]. intros [[H _]|[_ [H _]]]; [exact H|tauto]. }
    destruct (Nat.eqb_spec (len ht) (len lat)) as [E2|E2]; cbn [negb].
    2:{ rewrite raise_iff. split; [intros ->; left; tauto|]. intros [[H _]|[_ [_ [H _]]]]; [exact H|tauto]. }
    cbv zeta. rewrite !map_length. destruct (len lat - 2)%nat as [|m] eqn:Em; cbn [seq map].
    + rewrite raise_iff. split; [intros ->; right; repeat split; (assumption || lia)|]. intros [[_ H]|[H _]]; [tauto|exact H].
    + rewrite ok_raise. split; [tauto|]. intros [[_ H]|[_ [_ [_ H]]]]; [tauto|lia].
  - unfold latlon_to_EN, velocity_refuses.
    destruct (Nat.eqb_spec (len lon) (len lat)) as [E1|E1]; cbn [negb]; [|rewrite raise_iff; tauto].
    destruct (Nat.ltb_spec 10 (len lon)) as [E2|E2]; cbn [negb].
    + rewrite ok_raise. split; [tauto|]. intros [_ H]. apply H. lia.
    + rewrite raise_iff. split; [intros ->; split; [reflexivity|lia]|tauto].
Qed.
Print Assumptions C111_corrections.

Theorem C111_up_vecs : forall dt g cacc lacc on_off cper cdamp lper ldamp e,
  up_vecs dt g cacc lacc on_off cper cdamp lper ldamp = Raise e <->
  up_refuses (len g) (len cacc) (len lacc) (len on_off) e.
Proof.
  intros. unfold up_vecs, up_refuses.
  destruct (Nat.eqb_spec (len on_off) (len cacc)) as [E1|E1]; cbn [andb negb].
  2:{ rewrite raise_iff. split; [intros ->; left; tauto|]. intros [[H _]|[_ [H _]]]; [exact H|tauto]. }
  destruct (Nat.eqb_spec (len on_off) (len lacc)) as [E2|E2]; cbn [negb].
  2:{ rewrite raise_iff. split; [intros ->; left; tauto|]. intros [[H _]|[_ [_ [H _]]]]; [exact H|tauto]. }
  destruct (Nat.eqb_spec (len g) (len cacc)) as [E3|E3]; cbn [negb].
  2:{ rewrite raise_iff. split; [intros ->; right; tauto|]. intros [[_ H]|[H _]]; [tauto|exact H]. }
  cbv zeta. destruct (tilt_filter cper dt cdamp) as [cn cd]. destruct (tilt_filter lper dt ldamp) as [ln ld].
  unfold calc_up_vecs.
  rewrite (mapM_Ok_map _ _ _ (fun i => up_vec i (nth i (map atan (lfilter2 cn cd (drive (mask_zero (nan_to_zero cacc) on_off) g))) 0)
                                              (nth i (map atan (lfilter2 ln ld (drive (mask_zero (nan_to_zero lacc) on_off) g))) 0))).
  - cbn [bind]. rewrite ok_raise. split; [tauto|]. intros [[_ H]|[_ [_ [_ H]]]]; tauto.
  - intros i Hi. apply in_seq in Hi. rewrite map_length, lfilter2_length in Hi.
    assert (Ld : forall l, len l = len on_off -> len (drive (mask_zero (nan_to_zero l) on_off) g) = len on_off).
    { intros l Hl. unfold drive, nan_to_zero, mask_zero. rewrite !map_length, !map2_length, map_length. lia. }
    rewrite Ld in Hi by lia.
    rewrite !(getr_nth _ _ i 0) by (rewrite map_length, lfilter2_length, Ld; lia). reflexivity.
Qed.
Print Assumptions C111_up_vecs.

Theorem C111_gaussian_filter : forall x fl e,
  gaussian_filter x fl = Raise e <-> gauss_refuses (Z.of_nat (len x)) fl e.
Proof.
  intros x fl e. unfold gauss_refuses. destruct (Z_lt_dec fl 1) as [H|H].
  - rewrite C01_nonpositive_length_raises by exact H. destruct (Z.eqb_spec fl 0) as [->|E0].
    + destruct x; cbn [len].
      * rewrite raise_iff. split; [intros ->; left; split; [reflexivity|lia]|]. intros [[H1 _]|[[_ H1]|[[_ H1]|[_ H1]]]]; [exact H1|lia|lia|lia].
      * rewrite raise_iff. split; [intros ->; right; left; split; [reflexivity|lia]|]. intros [[_ H1]|[[H1 _]|[[_ H1]|[_ H1]]]]; [lia|exact H1|lia|lia].
    + destruct (Z.ltb_spec fl (-2)) as [E2|E2]; rewrite raise_iff.
      * split; [intros ->; right; right; right; split; [reflexivity|lia]|]. intros [[_ H1]|[[_ H1]|[[_ H1]|[H1 _]]]]; [lia|lia|lia|exact H1].
      * split; [intros ->; right; right; left; split; [reflexivity|lia]|]. intros [[_ H1]|[[_ H1]|[[H1 _]|[_ H1]]]]; [lia|lia|exact H1|lia].
  - destruct (C01_gaussian_filter_moving_sum x fl ltac:(lia)) as [C1 C2].
    destruct (Z_le_dec (Z.of_nat (len x)) fl) as [Hl|Hl].
    + rewrite (proj2 C1 Hl), raise_iff. split; [intros ->; left; tauto|]. intros [[H1 _]|[[_ H1]|[[_ H1]|[_ H1]]]]; [exact H1|lia|lia|lia].
    + destruct C2 as [o [-> _]]; [lia|]. rewrite ok_raise. split; [tauto|]. intros [[_ H1]|[[_ H1]|[[_ H1]|[_ H1]]]]; lia.
Qed.
Print Assumptions C111_gaussian_filter.

(** ** grav1d_padded, grav2d_folding *)
Theorem C111_padded : forall x topo zlev rho e,
  grav1d_padded x topo zlev rho = Raise e <-> e = IndexError /\ (x = [] \/ topo = []).
Proof.
  intros. unfold grav1d_padded. destruct x as [|x0 x]; [rewrite raise_iff; tauto|].
  destruct topo as [|t0 topo]; [rewrite raise_iff; tauto|]. cbv zeta. rewrite ok_raise.
  split; [tauto|]. intros [_ [H|H]]; discriminate.
Qed.
Print Assumptions C111_padded.

Lemma axis_short n d : (1 <= n)%nat -> (short_axis n -> len (axis_k2 n d) = (n - 1)%nat) /\ (~ short_axis n -> len (axis_k2 n d) = n).
Proof.
  intros Hn. destruct (Nat.even n) eqn:He.
  - rewrite axis_k2_length by assumption. split; [|reflexivity].
    intros [q ->]. apply Nat.even_spec in He. destruct He as [r He]. lia.
  - assert (Ho : Nat.odd n = true) by (unfold Nat.odd; rewrite He; reflexivity).
    apply Nat.odd_spec in Ho. destruct Ho as [q ->]. rewrite axis_k2_length_odd.
    destruct (Nat.eqb_spec q 0) as [->|Hq].
    + split; [intros [r H]; lia|reflexivity].
    + split; [intros _; lia|]. intros H. exfalso. apply H. exists (q - 1)%nat. lia.
Qed.

Lemma axis_zero d : len (axis_k2 0 d) = 1%nat.
Proof. reflexivity. Qed.

Lemma short_double n : ~ short_axis (n * 2).
Proof. intros [q H]. lia. Qed.

Lemma kwn2d_outcome nxt nyt dx dy e : kwn2d nxt nyt dx dy = Raise e <->
  (e = ValueError /\ (nxt = 0%nat \/ short_axis nxt)) \/ (e = IndexError /\ ~ (nxt = 0%nat \/ short_axis nxt) /\ short_axis nyt).
Proof.
  unfold kwn2d. cbv zeta. destruct (Nat.eqb_spec (len (axis_k2 nxt dx)) nxt) as [Ex|Ex]; cbn [negb].
  - assert (Hx : ~ (nxt = 0%nat \/ short_axis nxt)).
    { intros [->|H]; [discriminate|]. destruct H as [q Hq]. assert (L := proj1 (axis_short nxt dx ltac:(lia)) (ex_intro _ q Hq)). lia. }
    destruct (le_lt_dec nyt 0) as [Hy0|Hy0].
    + replace nyt with 0%nat by lia. cbn [seq mapM]. rewrite ok_raise. split; [tauto|].
      intros [[_ H]|[_ [_ [q H]]]]; [tauto|lia].
    + destruct (axis_short nyt dy Hy0) as [A1 A2].
      set (f := fun j => do y <- getr (axis_k2 nyt dy) j; Ok (map (fun x => sqrt (x + y)) (axis_k2 nxt dx))).
      assert (D : short_axis nyt \/ ~ short_axis nyt).
      { destruct (Nat.eq_dec (len (axis_k2 nyt dy)) nyt) as [L|L]; [right; intros H; apply A1 in H; lia|].
        left. destruct (Nat.even nyt) eqn:He; [rewrite axis_k2_length in L by (assumption || lia); tauto|].
        assert (Ho : Nat.odd nyt = true) by (unfold Nat.odd; rewrite He; reflexivity).
        apply Nat.odd_spec in Ho. destruct Ho as [q ->]. destruct q as [|q]; [|exists q; lia].
        exfalso. apply L. rewrite axis_k2_length_odd. reflexivity. }
      destruct D as [D|D].
      * assert (L := A1 D). replace (seq 0 nyt) with (seq 0 (nyt - 1) ++ (nyt - 1)%nat :: []) by (replace nyt with (nyt - 1 + 1)%nat at 3 by lia; rewrite seq_app; reflexivity).
        rewrite (mapM_raise _ _ f (seq 0 (nyt - 1)) (nyt - 1)%nat IndexError [] (map (fun j => map (fun x => sqrt (x + nth j (axis_k2 nyt dy) 0)) (axis_k2 nxt dx)) (seq 0 (nyt - 1)))).
        -- rewrite raise_iff. tauto.
        -- apply mapM_Ok_map. intros j Hj. apply in_seq in Hj. unfold f, getr. rewrite (nth_error_nth' _ 0) by lia. reflexivity.
        -- unfold f, getr. rewrite (proj2 (nth_error_None _ _)) by lia. reflexivity.
      * assert (L := A2 D).
        rewrite (mapM_Ok_map _ _ f (fun j => map (fun x => sqrt (x + nth j (axis_k2 nyt dy) 0)) (axis_k2 nxt dx))).
        -- rewrite ok_raise. tauto.
        -- intros j Hj. apply in_seq in Hj. unfold f, getr. rewrite (nth_error_nth' _ 0) by lia. reflexivity.
  - assert (Hx : nxt = 0%nat \/ short_axis nxt).
    { destruct (Nat.eq_dec nxt 0) as [H|H]; [left; exact H|right].
      destruct (Nat.even nxt) eqn:He; [rewrite axis_k2_length in Ex by (assumption || lia); tauto|].
      assert (Ho : Nat.odd nxt = true) by (unfold Nat.odd; rewrite He; reflexivity).
      apply Nat.odd_spec in Ho. destruct Ho as [q ->]. destruct q as [|q]; [|exists q; lia].
      exfalso. apply Ex. rewrite axis_k2_length_odd. reflexivity. }
    rewrite raise_iff. tauto.
Qed.

Theorem C111_folding : forall X Y Z dx dy drho dz ifold npower e,
  grav2d_folding X Y Z dx dy drho dz ifold npower = Raise e <-> folding_refuses (len X) (len Y) Z ifold e.
Proof.
  intros. unfold grav2d_folding, folding_refuses.
  assert (C : concat Z = [] <-> empty_grid Z).
  { unfold empty_grid. induction Z as [|r Z IH]; [split; [intros _ r []|reflexivity]|]. cbn [concat]. split.
    - intros H. apply app_eq_nil in H. destruct H as [H1 H2]. intros r' [<-|Hr]; [exact H1|]. apply IH; assumption.
    - intros H. rewrite (H r) by (left; reflexivity). apply IH. intros r' Hr. apply H. right. exact Hr. }
  destruct (concat Z) as [|c0 cs] eqn:Ec.
  { rewrite raise_iff. assert (EZ : empty_grid Z) by (apply C; reflexivity).
    split; [intros ->; left; tauto|]. intros [[H _]|[[_ [H _]]|[_ [H _]]]]; [exact H|tauto|tauto]. }
  assert (NZ : ~ empty_grid Z) by (intros H; apply C in H; discriminate).
  cbv zeta. rewrite <- Ec.
  set (nxt := if ifold then _ else len X). set (nyt := if ifold then (len Y * 2)%nat else len Y).
  assert (Hx : nxt = 0%nat \/ short_axis nxt <-> len X = 0%nat \/ (ifold = false /\ short_axis (len X))).
  { unfold nxt. destruct ifold; [|tauto]. pose proof (short_double (len X)). split; intros [H1|H1]; try tauto; try lia; destruct H1; discriminate. }
  assert (Hy : short_axis nyt <-> ifold = false /\ short_axis (len Y)).
  { unfold nyt. destruct ifold; [|tauto]. pose proof (short_double (len Y)). split; [tauto|intros [H1 _]; discriminate]. }
  pose proof (kwn2d_outcome nxt nyt (100000 * dx) (100000 * dy)) as K.
  destruct (kwn2d nxt nyt (100000 * dx) (100000 * dy)) as [kwn|e']; cbn [bind].
  - assert (K1 : ~ (nxt = 0%nat \/ short_axis nxt)) by (intros H; specialize (K ValueError); rewrite ok_raise in K; tauto).
    assert (K2 : ~ short_axis nyt) by (intros H; specialize (K IndexError); rewrite ok_raise in K; tauto).
    rewrite Hx in K1. rewrite Hy in K2. clear K Hx Hy.
    assert (F : (if negb (len Z =? len Y)%nat then true else negb (forallb (fun r => (len r =? len X)%nat) Z)) = true <-> ~ full_grid (len Y) (len X) Z).
    { unfold full_grid. destruct (Nat.eqb_spec (len Z) (len Y)) as [E|E]; cbn [negb]; [|tauto].
      rewrite negb_true_iff. rewrite <- not_true_iff_false, forallb_forall. 
      split; intros H H'; apply H; [|split; [exact E|]].
      - intros r Hr. apply Nat.eqb_eq. apply H'. exact Hr.
      - intros r Hr. apply Nat.eqb_eq. apply H'. exact Hr. }
    destruct (len Z =? len Y)%nat; cbn [negb] in F |- *.
    + destruct (forallb (fun r => (len r =? len X)%nat) Z); cbn [negb] in F |- *.
      * rewrite ok_raise. assert (~ ~ full_grid (len Y) (len X) Z) by (intros H; apply F in H; discriminate).
        split; [tauto|]. intros [[_ H1]|[[_ [_ H1]]|[_ [_ [_ H1]]]]]; tauto.
      * rewrite raise_iff. assert (~ full_grid (len Y) (len X) Z) by (apply F; reflexivity).
        split; [intros ->; right; right; tauto|]. intros [[H1 _]|[[_ [_ H1]]|[H1 _]]]; tauto.
    + rewrite raise_iff. assert (~ full_grid (len Y) (len X) Z) by (apply F; reflexivity).
      split; [intros ->; right; right; tauto|]. intros [[H1 _]|[[_ [_ H1]]|[H1 _]]]; tauto.
  - rewrite raise_iff. assert (Ke := proj1 (K e') eq_refl). rewrite Hx, Hy in Ke. clear K Hx Hy.
    destruct Ke as [[-> K1]|[-> [K1 K2]]].
    + split; [intros ->; left; tauto|]. intros [[H1 _]|[[_ [H1 _]]|[_ [H1 _]]]]; tauto.
    + split; [intros ->; right; left; tauto|]. intros [[_ H1]|[[H1 _]|[_ [_ [H1 _]]]]]; tauto.
Qed.
Print Assumptions C111_folding.

(** ** decode_dgs_status_bits on a table *)
Open Scope Z_scope.

Lemma filter_name (t : table) key : ~ In key (map fst t) -> filter (fun c => String.eqb key (fst c)) t = [].
Proof.
  induction t as [|[k l] t IH]; [reflexivity|]. cbn [map fst filter]. intros H.
  destruct (String.eqb_spec key k) as [->|]; [exfalso; apply H; left; reflexivity|]. apply IH. intros H'. apply H. right. exact H'.
Qed.

Lemma filter_name_in (t : table) key : In key (map fst t) -> filter (fun c => String.eqb key (fst c)) t <> [].
Proof.
  induction t as [|[k l] t IH]; [intros []|]. cbn [map fst filter]. intros [->|H].
  - rewrite String.eqb_refl. discriminate.
  - destruct (String.eqb key k); [discriminate|]. apply IH. exact H.
Qed.

Lemma get_col_split t1 t2 key l : get_col (t1 ++ (key, l) :: t2) key =
  if existsb (fun c => String.eqb key (fst c)) (t1 ++ t2) then Raise ValueError else Ok l.
Proof.
  unfold get_col. rewrite filter_app. cbn [filter fst]. rewrite String.eqb_refl.
  rewrite existsb_app.
  assert (E : forall t : table, existsb (fun c => String.eqb key (fst c)) t = match filter (fun c => String.eqb key (fst c)) t with [] => false | _ => true end).
  { induction t as [|[k l'] t IH]; [reflexivity|]. cbn [existsb filter fst]. destruct (String.eqb key k); [reflexivity|exact IH]. }
  rewrite !E. destruct (filter _ t1) as [|a [|b f1]]; destruct (filter _ t2) as [|c f2]; cbn [app orb]; reflexivity.
Qed.

Lemma format_cells l : (exists ss, l = map CInt ss /\ mapM format_cell l = Ok (map format016b ss)) \/
  (~ integer_cells l /\ mapM format_cell l = Raise ValueError).
Proof.
  induction l as [|c l IH]; [left; exists []; split; reflexivity|]. cbn [mapM].
  assert (B : forall c, (forall z, c <> CInt z) -> format_cell c = Raise ValueError) by (intros [] H; [destruct (H z eq_refl)|reflexivity|reflexivity]).
  destruct c as [z|a|n].
  - cbn [format_cell bind]. destruct IH as [[ss [-> E]]|[N E]].
    + left. exists (z :: ss). rewrite E. split; reflexivity.
    + right. rewrite E. split; [|reflexivity]. intros H. apply N. intros c Hc. apply H. right. exact Hc.
  - right. split; [|reflexivity]. intros H. destruct (H (CChar a)) as [z Hz]; [left; reflexivity|discriminate].
  - right. split; [|reflexivity]. intros H. destruct (H (COther n)) as [z Hz]; [left; reflexivity|discriminate].
Qed.

(** The loop: it inserts the flags one after the other and stops at the first one that is there. *)
Lemma insert_loop_any ss (c0 : column) (rest : table) : forall fs i (done : table),
  (i + len fs <= 16)%nat -> len done = i -> NoDup fs -> (forall f, In f fs -> ~ In f (map fst done)) ->
  (exists fs1 f fs2, fs = fs1 ++ f :: fs2 /\ In f (map fst (c0 :: rest)) /\ (forall g, In g fs1 -> ~ In g (map fst (c0 :: rest))) /\
     insert_loop (map format016b ss) i fs (c0 :: done ++ rest) =
     (c0 :: done ++ combine fs1 (map (bit_col ss) (seq i (len fs1))) ++ rest, Raise ValueError)) \/
  ((forall g, In g fs -> ~ In g (map fst (c0 :: rest))) /\
     insert_loop (map format016b ss) i fs (c0 :: done ++ rest) =
     (c0 :: done ++ combine fs (map (bit_col ss) (seq i (len fs))) ++ rest, Ok tt)).
Proof.
  induction fs as [|f fs IH]; intros i done Hi Hd Hnd Hfr.
  - right. split; [intros g []|reflexivity].
  - cbn [insert_loop].
    assert (E : mapM (fun b => do c <- getr b i; Ok (CChar c)) (map format016b ss) = Ok (bit_col ss i)).
    { unfold bit_col. rewrite (mapM_Ok_map _ _ _ (fun b => CChar (nth i b "?"%char))).
      - rewrite map_map. reflexivity.
      - intros b Hb. apply in_map_iff in Hb. destruct Hb as [s [<- _]].
        rewrite (getr_nth _ _ i "?"%char); [reflexivity|]. pose proof (format_length_ge s). cbn [len] in Hi. lia. }
    rewrite E. unfold insert_col.
    destruct (in_dec string_dec f (map fst (c0 :: rest))) as [Hin|Hin].
    + left. exists [], f, fs. split; [reflexivity|]. split; [exact Hin|]. split; [intros g []|].
      rewrite has_col_true; [reflexivity|]. cbn [map fst] in *. destruct Hin as [H|H]; [left; exact H|right].
      rewrite map_app. apply in_or_app. right. exact H.
    + assert (Hn : ~ In f (map fst (c0 :: done ++ rest))).
      { cbn [map fst]. rewrite map_app. intros [H|H]; [apply Hin; left; exact H|]. apply in_app_or in H. destruct H as [H|H].
        - exact (Hfr f (or_introl eq_refl) H).
        - apply Hin. right. exact H. }
      rewrite has_col_false by exact Hn.
      match goal with |- context [Nat.ltb ?a ?b] => replace (Nat.ltb a b) with false end.
      2:{ symmetry. apply Nat.ltb_ge. cbn [len]. rewrite app_length. lia. }
      cbn [firstn skipn]. rewrite firstn_app, skipn_app. rewrite <- Hd.
      rewrite firstn_all, skipn_all, Nat.sub_diag. cbn [firstn skipn app]. rewrite app_nil_r.
      inversion Hnd as [|x l Hx Hnd']; subst x l.
      assert (Et : c0 :: done ++ (f, bit_col ss (len done)) :: rest = c0 :: (done ++ [(f, bit_col ss (len done))]) ++ rest)
        by (rewrite <- app_assoc; reflexivity).
      rewrite Et. destruct (IH (S (len done)) (done ++ [(f, bit_col ss (len done))])) as [[fs1 [f' [fs2 [E1 [E2 [E3 E4]]]]]]|[E1 E2]].
      * cbn [len] in Hi. lia.
      * rewrite app_length. cbn [len]. lia.
      * exact Hnd'.
      * intros g Hg Hin'. rewrite map_app in Hin'. apply in_app_or in Hin'. destruct Hin' as [H|[H|[]]].
        -- exact (Hfr g (or_intror Hg) H).
        -- cbn [fst] in H. subst g. contradiction.
      * left. exists (f :: fs1), f', fs2. split; [rewrite E1; reflexivity|]. split; [exact E2|]. split.
        -- intros g [<-|Hg]; [exact Hin|exact (E3 g Hg)].
        -- rewrite E4. rewrite <- app_assoc. reflexivity.
      * right. split; [intros g [<-|Hg]; [exact Hin|exact (E1 g Hg)]|]. rewrite E2, <- app_assoc. reflexivity.
Qed.

Theorem C111_status : forall t key e,
  (snd (decode_df t key) = Raise e <-> status_refuses t key e) /\
  (snd (decode_df t key) = Raise e -> status_leaves t (fst (decode_df t key)) e).
Proof.
  intros t key e. unfold status_refuses.
  destruct (in_dec string_dec key (map fst t)) as [Hin|Hin].
  2:{ unfold decode_df, get_col. rewrite filter_name by exact Hin. cbn [fst snd]. split.
      - rewrite raise_iff. split; [intros ->; left; tauto|]. intros [[H _]|[_ [t1 [l [t2 [H _]]]]]]; [exact H|].
        exfalso. apply Hin. rewrite H, map_app. apply in_or_app. right. left. reflexivity.
      - intros _. left. reflexivity. }
  assert (Sp : exists t1 l t2, t = t1 ++ (key, l) :: t2 /\ ~ In key (map fst t1)).
  { clear e. induction t as [|[k l] t IH]; [destruct Hin|]. destruct (string_dec k key) as [->|Hk].
    - exists [], l, t. split; [reflexivity|intros []].
    - destruct IH as [t1 [l' [t2 [E N]]]]; [destruct Hin as [H|H]; [contradiction|exact H]|].
      exists ((k, l) :: t1), l', t2. split; [rewrite E; reflexivity|]. cbn [map fst]. intros [H|H]; [contradiction|exact (N H)]. }
  destruct Sp as [t1 [l [t2 [Et Nt1]]]].
  assert (G : get_col t key = if existsb (fun c => String.eqb key (fst c)) (t1 ++ t2) then Raise ValueError else Ok l) by (rewrite Et; apply get_col_split).
  assert (Ex : existsb (fun c : column => String.eqb key (fst c)) (t1 ++ t2) = true <-> In key (map fst (t1 ++ t2))).
  { rewrite existsb_exists, in_map_iff. split; intros [[k l'] [H1 H2]]; cbn [fst] in *.
    - apply String.eqb_eq in H2. exists (k, l'). cbn [fst]. auto.
    - exists (k, l'). cbn [fst]. subst k. rewrite String.eqb_refl. auto. }
  unfold decode_df. rewrite G. destruct (existsb _ (t1 ++ t2)) eqn:Edup.
  { cbn [fst snd]. split; [|intros _; left; reflexivity]. rewrite raise_iff. split.
    - intros ->. right. split; [reflexivity|]. exists t1, l, t2. split; [exact Et|]. left. apply Ex. exact Edup.
    - intros [[_ H]|[H _]]; [tauto|exact H]. }
  assert (Nd : ~ In key (map fst (t1 ++ t2))) by (intros H; apply Ex in H; change (existsb (fun c : column => String.eqb key (fst c)) (t1 ++ t2) = false) in Edup; rewrite Edup in H; discriminate).
  (* the split is the only one *)
  assert (U : forall u1 l' u2, t = u1 ++ (key, l') :: u2 -> ~ In key (map fst (u1 ++ u2)) /\ l' = l).
  { intros u1 l' u2 E. pose proof (get_col_split u1 u2 key l') as G'. rewrite <- E, G in G'.
    destruct (existsb (fun c => String.eqb key (fst c)) (u1 ++ u2)) eqn:E'; [discriminate|].
    split; [|injection G' as G'; auto]. intros H. apply in_map_iff in H. destruct H as [[k l9] [H1 H2]]. cbn [fst] in H1. subst k.
    rewrite <- not_true_iff_false in E'. apply E'. apply existsb_exists. exists (key, l9). cbn [fst]. rewrite String.eqb_refl. auto. }
  destruct (format_cells l) as [[ss [El Ef]]|[Nl Ef]]; rewrite Ef.
  2:{ cbn [fst snd]. split; [|intros _; left; reflexivity]. rewrite raise_iff. split.
      - intros ->. right. split; [reflexivity|]. exists t1, l, t2. tauto.
      - intros [[_ H]|[H _]]; [tauto|exact H]. }
  assert (Il : integer_cells l) by (rewrite El; intros c Hc; apply in_map_iff in Hc; destruct Hc as [z [<- _]]; exists z; reflexivity).
  destruct t as [|c0 rest]; [destruct t1; discriminate|].
  pose proof (insert_loop_any ss c0 rest flags 0 []) as IL. cbn [app] in IL.
  destruct IL as [[fs1 [f [fs2 [E1 [E2 [E3 E4]]]]]]|[E1 E2]].
  - cbn; lia.
  - reflexivity.
  - exact flags_nodup.
  - intros f _ [].
  - rewrite E4. cbn [fst snd].
    assert (Ffst : map fst documented = flags) by reflexivity.
    assert (Fin : forall x, In x flags -> exists b, In (x, b) documented).
    { intros x Hx. rewrite <- Ffst in Hx. apply in_map_iff in Hx. destruct Hx as [[y b] [<- Hy]]. exists b. exact Hy. }
    split.
    + rewrite raise_iff. split; [|intros [[_ H]|[H _]]; [tauto|exact H]].
      intros ->. right. split; [reflexivity|]. exists t1, l, t2. split; [exact Et|]. right. right.
      destruct (Fin f) as [b Hb]; [rewrite E1; apply in_or_app; right; left; reflexivity|]. exists f, b. tauto.
    + intros He. apply raise_iff in He. subst e. right. split; [reflexivity|].
      assert (Lf : len flags = (len fs1 + S (len fs2))%nat) by (rewrite E1, app_length; reflexivity).
      assert (Ef1 : map fst (firstn (len fs1) documented) = fs1).
      { rewrite <- firstn_map, Ffst, E1, firstn_app, firstn_all, Nat.sub_diag. cbn [firstn]. apply app_nil_r. }
      exists (len fs1), c0, rest, (combine fs1 (map (bit_col ss) (seq 0 (len fs1)))).
      split; [reflexivity|]. split; [reflexivity|]. split; [|split].
      * rewrite Ef1. clear. remember (map (bit_col ss) (seq 0 (len fs1))) as v. assert (L : len v = len fs1) by (subst v; rewrite map_length, seq_length; reflexivity).
        clear Heqv. revert v L. induction fs1 as [|x fs IH]; intros [|y v] L; try discriminate; [reflexivity|]. cbn [combine map fst]. f_equal. apply IH. cbn in L. lia.
      * intros g b Hg. apply E3. rewrite <- Ef1. apply in_map_iff. exists (g, b). split; [reflexivity|exact Hg].
      * replace (fst (nth (len fs1) documented (""%string, 0))) with f; [exact E2|].
        change (""%string) with (fst (""%string, 0)) at 1. rewrite <- (map_nth fst), Ffst, E1, app_nth2 by lia. rewrite Nat.sub_diag. reflexivity.
  - rewrite E2. cbn [fst snd]. split; [|discriminate]. rewrite ok_raise. split; [tauto|].
    intros [[_ H]|[_ [u1 [l' [u2 [Eu H]]]]]]; [tauto|]. destruct (U u1 l' u2 Eu) as [V1 V2]. subst l'.
    destruct H as [H|[H|[f [b [H1 H2]]]]]; [tauto|tauto|].
    apply (E1 f); [|exact H2]. rewrite flags_documented. apply in_map_iff. exists (f, b). split; [reflexivity|exact H1].
Qed.
Print Assumptions C111_status.

(** ** calc_cross_coupling_coefficients *)
Theorem C111_cross_coupling : forall faa vcc ve al ax lev times sr e,
  (forall ts, times = Some ts -> len ts = len faa) ->
  (cc_table faa vcc ve al ax lev times sr = Raise e <->
   e = ValueError /\
   forall a b, ~ code_range (len faa) (fun i => match times with Some ts => gap ts sr i | None => False end) a b).
Proof.
  intros faa vcc ve al ax lev times sr e Hn. unfold cc_table. cbv zeta.
  pose proof (used_bounds_spec (len faa) times sr Hn) as Hs.
  destruct (used_bounds (len faa) (end_inds (len faa) times sr)) as [|[a b] l].
  - rewrite raise_iff. split; [|tauto]. intros ->. split; [reflexivity|]. intros a b H. apply Hs in H. destruct H.
  - rewrite ok_raise. split; [tauto|]. intros [_ H]. apply (H a b). apply Hs. left. reflexivity.
Qed.
Print Assumptions C111_cross_coupling.

(** Two tables: one with a flag column further on, so that two columns are in before the call fails;
    one whose status column holds a text. *)
Definition table_clash : table := [("rgrav"%string, [CInt 5; CInt 6]); ("status"%string, [CInt 49152; CInt 3]); ("reserved"%string, [CInt 0; CInt 0])].
Example C111_case_status :
  decode_df table_clash "status"%string =
    ([("rgrav"%string, [CInt 5; CInt 6]); ("clamp status"%string, [CChar "1"%char; CChar "0"%char]);
      ("GPSsync"%string, [CChar "1"%char; CChar "0"%char]); ("status"%string, [CInt 49152; CInt 3]); ("reserved"%string, [CInt 0; CInt 0])],
     Raise ValueError) /\
  snd (decode_df table_clash "Status"%string) = Raise KeyError /\
  snd (decode_df [("status"%string, [CInt 3; COther 0])] "status"%string) = Raise ValueError.
Proof. repeat split; reflexivity. Qed.

Open Scope R_scope.
(** A 3 by 2 grid without folding, a 2 by 3 one, and one with a short row. *)
Example C111_case_folding : forall dx dy drho dz np,
  grav2d_folding [0; 1; 2] [0; 1] [[1; 2; 3]; [4; 5; 6]] dx dy drho dz false np = Raise ValueError /\
  grav2d_folding [0; 1] [0; 1; 2] [[1; 2]; [3; 4]; [5; 6]] dx dy drho dz false np = Raise IndexError /\
  grav2d_folding [0; 1; 2] [0; 1] [[1; 2; 3]; [4; 5]] dx dy drho dz true np = Raise ValueError /\
  exists g, grav2d_folding [0; 1; 2] [0; 1] [[1; 2; 3]; [4; 5; 6]] dx dy drho dz true np = Ok g.
Proof.
  intros dx dy drho dz np. split; [|split; [|split]].
  - apply C111_folding. left. split; [reflexivity|]. right. right. split; [reflexivity|]. exists 0%nat. reflexivity.
  - apply C111_folding. right. left. split; [reflexivity|]. split; [|split; [reflexivity|exists 0%nat; reflexivity]].
    intros [H|[H|[_ [q H]]]]; [specialize (H [1; 2] (or_introl eq_refl)); discriminate|discriminate|cbn in H; lia].
  - apply C111_folding. right. right. split; [reflexivity|]. split; [|split].
    + intros [H|[H|[H _]]]; [specialize (H [1; 2; 3] (or_introl eq_refl)); discriminate|discriminate|discriminate].
    + intros [H _]. discriminate.
    + intros [_ H]. specialize (H [4; 5] (or_intror (or_introl eq_refl))). discriminate.
  - destruct (grav2d_folding [0; 1; 2] [0; 1] [[1; 2; 3]; [4; 5; 6]] dx dy drho dz true np) as [g|e] eqn:E; [exists g; reflexivity|exfalso].
    apply C111_folding in E. destruct E as [[_ [H|[H|[H _]]]]|[[_ [_ [H _]]]|[_ [_ [_ H]]]]]; try discriminate.
    + specialize (H [1; 2; 3] (or_introl eq_refl)). discriminate.
    + apply H. split; [reflexivity|]. intros r [<-|[<-|[]]]; reflexivity.
Qed.

(** Crustal thickness of a 1 by 2 grid; wavelengths equal, a length of zero, a value too few. *)
Example C111_case_crust : forall dy zdown back,
  crustal_thickness_2D [1; 2] 1 2 1 dy zdown 400 25 25 back = Raise AssertionError /\
  crustal_thickness_2D [1; 2] 1 2 1 dy zdown 400 25 0 back = Raise ZeroDivisionError /\
  crustal_thickness_2D [1] 1 2 1 dy zdown 400 150 25 back = Raise ValueError.
Proof.
  intros dy zdown back. repeat split; apply C111_crustal_thickness.
  - left. split; [reflexivity|lra].
  - right. left. split; [reflexivity|]. split; [lra|]. right. left. reflexivity.
  - right. right. split; [reflexivity|]. split; [lra|]. split; [|discriminate].
    intros [H|[H|[H|[H|[H|H]]]]]; (discriminate || lra).
Qed.

(** A search for the depth of an isotherm upwards with a spacing pointing downwards; and the other way round it works. *)
Example C111_case_thermal : forall x T u L Tm time a k,
  therm_Z_plate x T u L Tm time 100 0 5 3300 1000 a k = Raise IndexError /\
  exists D, therm_Z_plate x T u L Tm time 100 0 (-5) 3300 1000 a k = Ok D.
Proof.
  intros x T u L Tm time a k.
  assert (C := fun z1 z2 dz e => proj2 (proj2 (proj2 (C111_thermal x [] 0 T u L Tm time z1 z2 dz 3300 1000 a k e)))). split.
  - apply C. right. left. split; [reflexivity|]. split; lra.
  - destruct (therm_Z_plate x T u L Tm time 100 0 (-5) 3300 1000 a k) as [D|e] eqn:E; [exists D; reflexivity|exfalso].
    apply C in E. destruct E as [[_ H]|[[_ [_ H]]|[_ [_ [_ H]]]]]; lra.
Qed.
