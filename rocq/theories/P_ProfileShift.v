(** Property C116, continued: profiles with another level of the anomaly, flat profiles, failures, and a case. *)
From Coq Require Import ZArith QArith Reals Qreals Lra Lia Ascii String Arith Bool List.
From Verif Require Import M_Py M_Np M_Str M_Ini M_Table M_Dgs M_Faa M_Nan M_Script M_Filt M_CC M_Four M_Ext M_Line M_Coh M_Rmba M_Thick M_Ccp M_Profile.
From Verif Require Import S_Base S_Str S_Table S_Filt S_Crust S_Faa S_Rmba S_Thick S_Profile S_Nan.
From Verif Require Import L_Base L_Np L_Str L_Num L_Table L_Faa P_Nan P_Ext P_Rmba P_Thick P_Line P_Profile.
Import ListNotations.
Open Scope R_scope.
Local Notation len := List.length.

(** ** Another level of the anomaly *)
Definition raised (s : R) : list (option R) -> list (option R) := map (option_map (fun x => x + s)).
Lemma nth_raised s l k : nth k (raised s l) None = option_map (fun x => x + s) (nth k l None).
Proof. unfold raised. change (@None R) with (option_map (fun x => x + s) None) at 1. apply map_nth. Qed.
Lemma raised_length s l : len (raised s l) = len l.
Proof. apply map_length. Qed.
Lemma raised_missing s l k : missing (raised s l) k <-> missing l k.
Proof. unfold missing, raised. rewrite nth_error_map. destruct (nth_error l k) as [[x|]|]; cbn; split; congruence. Qed.
Lemma reflected_shift (v : list R) s z : (- Z.of_nat (len v) < z < 2 * Z.of_nat (len v) - 1)%Z -> reflected (map (fun x => x + s) v) z = reflected v z + s.
Proof.
  intros Hz. unfold reflected. rewrite map_length.
  assert (N : forall k, (k < len v)%nat -> nth k (map (fun x => x + s) v) 0 = nth k v 0 + s).
  { intros k Hk. rewrite (nth_indep _ 0 (0 + s)) by (rewrite map_length; exact Hk). apply (map_nth (fun x => x + s)). }
  destruct (Z.ltb_spec z 0); [rewrite !N by lia; ring|]. destruct (Z.ltb_spec z (Z.of_nat (len v))); [apply N; lia|rewrite !N by lia; ring].
Qed.
Lemma fb_shift h v s m : Rsum 480 h = 1 -> (1440 < len v)%nat -> (m < len v)%nat ->
  forwards_backwards h (reflected (map (fun x => x + s) v)) (Z.of_nat m) = forwards_backwards h (reflected v) (Z.of_nat m) + s.
Proof.
  intros Hh Hn Hm. unfold forwards_backwards.
  rewrite (Rsum_ext 480 _ (fun i => Rsum 480 (fun j => h i * h j * reflected v (Z.of_nat m + Z.of_nat i - Z.of_nat j)%Z) + s * h i)).
  - rewrite Rsum_plus, Rsum_scal, Hh. ring.
  - intros i Hi. rewrite (Rsum_ext 480 _ (fun j => h i * h j * reflected v (Z.of_nat m + Z.of_nat i - Z.of_nat j)%Z + s * h i * h j)).
    + rewrite Rsum_plus, Rsum_scal, Hh. ring.
    + intros j Hj. rewrite reflected_shift by lia. ring.
Qed.
Lemma filter_raised s x y : script_filter_nan x = Ok y -> script_filter_nan (raised s x) = Ok (raised s y).
Proof.
  intros E. destruct (C95_missing x) as [S1 S2]. destruct (Nat.le_gt_cases (len x) 1440) as [H|H]; [rewrite (S1 H) in E; discriminate|].
  destruct (S2 H) as (y0 & E0 & Ly & M). assert (y0 = y) by congruence. subst y0. clear S1 S2 E0.
  destruct (C95_missing (raised s x)) as [_ S2]. rewrite raised_length in S2. destruct (S2 H) as (y' & E' & Ly' & M'). rewrite E'. f_equal.
  destruct C95_values as (h & [Hh _] & V). apply (list_eq_nth _ _ _ None); [rewrite raised_length; lia|]. intros k Hk. rewrite Ly' in Hk.
  rewrite nth_raised. specialize (M k Hk). specialize (M' k Hk).
  assert (MM : missing y' k <-> missing y k).
  { rewrite M, M'. split; intros (i & Hi & Ni); exists i; (split; [|exact Ni]); apply (raised_missing s x i); exact Hi. }
  unfold missing in MM. rewrite (nth_error_nth' y' None), (nth_error_nth' y None) in MM by lia.
  destruct (nth k y None) as [a|] eqn:Ea; [|assert (Z : Some (nth k y' None) = Some None) by (apply MM; reflexivity); cbn [option_map]; congruence].
  destruct (nth k y' None) as [a'|] eqn:Ea'; [|assert (Z : Some (Some a) = Some None) by (apply MM; reflexivity); congruence].
  cbn [option_map]. f_equal. pose proof (known0_completes x) as Cx.
  assert (Cx' : completes (map (fun x => x + s) (map known0 x)) (raised s x)).
  { destruct Cx as [C1 C2]. split; [rewrite raised_length, map_length; exact C1|]. intros j b Hb. unfold raised in Hb. rewrite nth_error_map in *.
    destruct (nth_error x j) as [[c|]|] eqn:Ej; try discriminate. specialize (C2 j c Ej). rewrite C2. cbn in Hb. cbn. congruence. }
  rewrite (V x y _ k a E Cx) by (rewrite (nth_error_nth' y None) by lia; rewrite Ea; reflexivity).
  rewrite (V _ y' _ k a' E' Cx') by (rewrite (nth_error_nth' y' None) by lia; rewrite Ea'; reflexivity).
  apply fb_shift; [exact Hh|rewrite map_length; lia..].
Qed.
Lemma embed_raised s m faa x r : embed_nan m faa x = Ok r -> embed_nan m (raised s faa) (raised s x) = Ok (raised s r).
Proof.
  unfold embed_nan. destruct (script_filter_nan x) as [y|e] eqn:E; [|discriminate]. rewrite (filter_raised s _ _ E). cbn [bind].
  assert (Sl : slice_neg (raised s y) script_taps script_taps = raised s (slice_neg y script_taps script_taps)).
  { unfold slice_neg, slice, raised. rewrite map_length, skipn_map, firstn_map. reflexivity. }
  rewrite Sl. unfold loc_assign_nan. rewrite !raised_length. set (v := slice_neg y script_taps script_taps).
  destruct (_ =? len v)%nat.
  - intros H. assert (r = map (fun i => if ((m + script_taps <=? i) && (i <? m + script_taps + len v))%nat%bool then nth (i - (m + script_taps)) v None else nth i faa None) (seq 0 (len faa))) by congruence.
    subst r. unfold raised at 3. rewrite map_map. f_equal. apply map_ext. intros i. rewrite !nth_raised. destruct (_ && _)%bool; reflexivity.
  - destruct (_ && _)%bool; [|discriminate]. intros H. congruence.
Qed.
Lemma osub_raised s a b n : len a = n -> len b = n -> map2 osub (raised s a) b = raised s (map2 osub a b).
Proof.
  intros La Lb. apply (list_eq_nth _ _ _ None); [rewrite raised_length, !(omap2_len _ _ n); rewrite ?raised_length; auto|]. intros k Hk.
  rewrite (omap2_len _ _ n) in Hk by (rewrite ?raised_length; assumption). rewrite nth_raised, !(omap2_nth _ _ n) by (rewrite ?raised_length; assumption).
  rewrite nth_raised. destruct (nth k a None) as [x|], (nth k b None) as [y|]; cbn; try reflexivity. f_equal. ring.
Qed.
Lemma insert_raised s p l : insert_at (fst p, option_map (fun x => x + s) (snd p)) (map (fun q => (fst q, option_map (fun x => x + s) (snd q))) l) = map (fun q => (fst q, option_map (fun x => x + s) (snd q))) (insert_at p l).
Proof. induction l as [|q r IH]; [reflexivity|]. cbn [map insert_at fst]. destruct (Rle_dec _ _); [reflexivity|]. cbn [map]. rewrite IH. reflexivity. Qed.
Lemma by_distance_raised s xs ys : by_distance xs (raised s ys) = map (fun q => (fst q, option_map (fun x => x + s) (snd q))) (by_distance xs ys).
Proof.
  unfold by_distance. revert ys. induction xs as [|x xs IH]; intros ys; [reflexivity|]. destruct ys as [|y ys]; [reflexivity|]. cbn [raised map combine fold_right].
  change (map (option_map (fun x0 => x0 + s)) ys) with (raised s ys). rewrite IH. apply (insert_raised s (x, y)).
Qed.
Lemma resample_raised s xs ys r : resample xs ys = Ok r -> resample xs (raised s ys) = Ok (raised s r).
Proof.
  unfold resample. rewrite raised_length. destruct (negb _); [discriminate|]. cbv zeta. rewrite by_distance_raised, !map_map. cbn [fst snd].
  change (map (fun x => fst x) (by_distance xs ys)) with (map fst (by_distance xs ys)). rewrite <- (map_map snd (option_map (fun x => x + s))). fold (raised s (map snd (by_distance xs ys))).
  generalize (map snd (by_distance xs ys)) as vs. generalize (map fst (by_distance xs ys)) as us. intros us vs. destruct (existsb _ _); [discriminate|]. intros H. assert (r = map (np_interp us vs) (line_xobs xs)) by congruence. subst r.
  unfold raised at 2. rewrite map_map. f_equal. apply map_ext. intros t. unfold np_interp. rewrite !last_nth, raised_length, !nth_raised.
  destruct (Rlt_dec _ t); [reflexivity|]. destruct (Rlt_dec t _); [reflexivity|]. cbv zeta. rewrite ?nth_raised. destruct (_ =? _)%nat; [reflexivity|]. destruct (Req_EM_T _ _); [reflexivity|].
  destruct (nth _ vs None) as [a|]; [|reflexivity]. cbn [option_map]. destruct (nth (S _) vs None) as [b|]; [|reflexivity]. cbn [option_map]. f_equal. unfold Rdiv. ring.
Qed.
Lemma harmonics_shift c s A B t : harmonics (c + s) A B t = harmonics c A B t + s.
Proof. unfold harmonics. ring. Qed.
Lemma crust_raised s xs RM T G : 0 < last xs 0 -> len RM = 1000%nat -> line_crust (line_xobs xs) RM = Ok (T, G) -> line_crust (line_xobs xs) (raised s RM) = Ok (T, raised s G).
Proof.
  intros Hl L E. destruct (in_dec (fun a b : option R => ltac:(decide equality; apply Req_EM_T)) None RM) as [I|I].
  - rewrite (proj1 (C100_missing xs RM) I L) in E. rewrite (proj1 (C100_missing xs (raised s RM))); [|apply (in_map (option_map (fun x => x + s)) _ _ I)|rewrite raised_length; exact L].
    assert (T = repeat None 1000) by congruence. assert (EG : G = repeat None 1000) by congruence. subst T. rewrite EG. reflexivity.
  - destruct (all_known _ I) as (v & ->). rewrite map_length in L. destruct (C100_every_series v L) as (c & A & B & H).
    destruct (C100_curves xs v c A B Hl L H) as (T0 & G0 & E0 & LT & LG & V).
    assert (Er : raised s (map Some v) = map Some (map (fun x => x + s) v)) by (unfold raised; rewrite !map_map; reflexivity). rewrite Er.
    destruct (C100_curves xs (map (fun x => x + s) v) (c + s) A B Hl) as (T1 & G1 & E1 & LT1 & LG1 & V1).
    { rewrite map_length. exact L. }
    { intros j Hj. rewrite harmonics_shift, <- H by exact Hj. rewrite (nth_indep _ 0 (0 + s)) by (rewrite map_length; lia). apply (map_nth (fun x => x + s)). }
    rewrite E1. assert (ET : T = map Some T0) by congruence. assert (EG : G = map Some G0) by congruence. subst T G. cbv zeta in V, V1.
    assert (T1 = T0).
    { apply (list_eq_nth _ _ _ 0); [congruence|]. intros j Hj. rewrite LT1 in Hj. destruct (V j Hj) as [_ ->]. destruct (V1 j Hj) as [_ ->]. reflexivity. }
    assert (G1 = map (fun x => x + s) G0).
    { apply (list_eq_nth _ _ _ 0); [rewrite map_length; congruence|]. intros j Hj. rewrite LG1 in Hj. rewrite (nth_indep (map _ G0) 0 (0 + s)) by (rewrite map_length; lia).
      rewrite (map_nth (fun x => x + s)). destruct (V j Hj) as [-> _]. destruct (V1 j Hj) as [-> _]. apply harmonics_shift. }
    subst T1 G1. unfold raised. rewrite !map_map. reflexivity.
Qed.

(** Another level of the segment's and of the tracked anomaly: both anomalies and the recovered one are on this level, the thickness is the same. *)
Theorem C116_offset : forall g data data' fsys path text fsys' path' text' lon lat dep faa sed age xs s P,
  Forall2 (fun r r' => l_lat r' = l_lat r /\ l_lon r' = l_lon r /\ l_faa r' = option_map (fun x => x + s) (l_faa r)) data data' ->
  fsys path = Some text -> track_file text lon lat dep faa sed age ->
  fsys' path' = Some text' -> track_file text' lon lat dep (map (option_map (fun x => x + s)) faa) sed age ->
  distances g lon lat xs -> apart xs -> (2 <= len lon)%nat -> rmba_script g data fsys path = Some (Ok P) ->
  exists P', rmba_script g data' fsys' path' = Some (Ok P') /\ f_xpts P' = f_xpts P /\ f_xobs P' = f_xobs P /\ f_thick P' = f_thick P /\
    forall f, In f [f_anom; f_mba; f_rmba; f_back] -> f P' = map (option_map (fun x => x + s)) (f P).
Proof.
  intros g data data' fsys path text fsys' path' text' lon lat dep faa sed age xs s P Fd Ht T Ht' T' D A Hn H.
  fold (raised s) in *. fold (raised s faa) in T'.
  assert (Q1 : map l_lat data' = map l_lat data) by (clear - Fd; induction Fd as [|? ? ? ? (? & ? & ?) _ IH]; cbn; congruence).
  assert (Q2 : map l_lon data' = map l_lon data) by (clear - Fd; induction Fd as [|? ? ? ? (? & ? & ?) _ IH]; cbn; congruence).
  assert (Q3 : map l_faa data' = raised s (map l_faa data)) by (clear - Fd; unfold raised; induction Fd as [|? ? ? ? (? & ? & ?) _ IH]; cbn; congruence).
  destruct (track_read _ _ _ _ _ _ _ T) as (t & Et & C1 & C2 & C3 & C4 & C5 & C6 & L1 & L2 & L3 & L4 & L5).
  destruct (track_read _ _ _ _ _ _ _ T') as (t' & Et' & B1 & B2 & B3 & B4 & B5 & B6 & _).
  unfold rmba_script in *. rewrite Q1, Q2, Q3. destruct (finite (map l_lat data)) as [la|]; [|discriminate]. destruct (finite (map l_lon data)) as [lo|]; [|discriminate].
  destruct (extended_line g (combine la lo)) as [[m line]|e]; [|discriminate]. cbn [andthen fst] in *.
  unfold open_text in *. rewrite Ht in H. rewrite Ht'. cbn [andthen] in *. rewrite Et in H. rewrite Et'. cbn [andthen] in *.
  rewrite C1, C2, C3, C4, C5, C6 in H. rewrite B1, B2, B3, B4, B5, B6.
  destruct (embed_nan m faa (map l_faa data)) as [anom|e] eqn:Ea; [|discriminate]. rewrite (embed_raised s _ _ _ _ Ea). cbn [andthen] in *. rewrite !finite_map in *.
  assert (La : len anom = len faa).
  { unfold embed_nan in Ea. destruct (script_filter_nan (map l_faa data)) as [y|]; [|discriminate]. cbn [bind] in Ea. unfold loc_assign_nan in Ea.
    destruct (_ =? _)%nat; [|destruct (_ && _)%bool; [congruence|discriminate]]. assert (X : forall (a b : list (option R)), Ok a = Ok b -> len a = len b) by (intros; congruence). apply X in Ea. rewrite map_length, seq_length in Ea. congruence. }
  clear Ea Et Et' C1 C2 C3 C4 C5 C6 B1 B2 B3 B4 B5 B6 T T'.
  destruct (profile_runs g lon lat anom dep sed age xs D A Hn) as (P0 & EP & X1 & X2 & R1 & R2 & R3 & R4 & E1 & E2 & E3 & E4 & Em & Ec & M1 & M2 & M3 & M4); [lia..|].
  destruct (profile_runs g lon lat (raised s anom) dep sed age xs D A Hn) as (P1 & EP1 & Y1 & Y2 & S1 & S2 & S3 & S4 & F1 & F2 & F3 & F4 & Fm & Fc & N1 & N2 & N3 & N4); [rewrite ?raised_length; lia..|].
  assert (P0 = P) by congruence. subst P0. exists P1. split; [congruence|]. split; [congruence|]. split; [congruence|].
  destruct D as (D1 & _ & D0 & _). assert (Hpos : 0 < last xs 0) by apply A.
  assert (K1 : f_anom P1 = raised s (f_anom P)) by (pose proof (resample_raised s _ _ _ R1); congruence).
  assert (K2 : f_dep P1 = f_dep P) by congruence. assert (K3 : f_sed P1 = f_sed P) by congruence. assert (K4 : f_age P1 = f_age P) by congruence.
  rewrite K1, K2, K3, K4, Y2 in Fm. rewrite X2 in Em, Ec. rewrite Y2 in Fc.
  destruct (xobs_cons xs) as (r & Ex). pose proof (xobs_length xs) as Lx. pose proof (xobs_last xs) as Hx. rewrite Ex in Em, Fm, Lx, Hx.
  destruct (rmba_split 0 r (f_dep P) (f_sed P) (f_age P) 1000 Lx ltac:(lia) ltac:(rewrite Hx; lra) (proj1 E2) (proj1 E3) (proj1 E4)) as (w & a & c & TT & Lw & Lsx & Lc & LT & Eq).
  rewrite Eq in Em, Fm. pose proof (proj1 E1) as Lf.
  assert (LM : len (map2 osub (map2 osub (map2 osub (f_anom P) w) a) c) = 1000%nat) by (repeat apply omap2_len; assumption).
  rewrite (osub_raised s (f_anom P) w 1000), (osub_raised s _ a 1000), (osub_raised s _ c 1000), (osub_raised s _ TT 1000) in Fm by (repeat apply omap2_len; assumption).
  assert (K5 : f_mba P1 = raised s (f_mba P)) by congruence. assert (K6 : f_rmba P1 = raised s (f_rmba P)) by congruence.
  rewrite K6 in Fc. rewrite (crust_raised s xs _ _ _ Hpos M2 Ec) in Fc. split; [congruence|].
  intros f [<-|[<-|[<-|[<-|[]]]]]; change (map (option_map (fun x => x + s))) with (raised s); congruence.
Qed.
Print Assumptions C116_offset.

(** Where depth, sediment and age do not vary along the line, both anomalies are the anomaly itself. *)
Theorem C116_flat : forall g data pts m line fsys path text lon lat n d sd a faa xs,
  Forall2 (fun r p => l_lat r = Some (fst p) /\ l_lon r = Some (snd p)) data pts -> extended_line g pts = Ok (m, line) -> (1440 < len data)%nat ->
  fsys path = Some text -> track_file text lon lat (repeat (Some d) n) faa (repeat (Some sd) n) (repeat (Some a) n) -> 0 <= a -> (m + len data <= len lon + 480)%nat ->
  distances g lon lat xs -> apart xs -> (forall k, (k < m + 480)%nat \/ (m + len data <= k + 480)%nat -> nth_error faa k <> Some None) -> (forall r, In r data -> l_faa r <> None) ->
  exists P f, rmba_script g data fsys path = Some (Ok P) /\ f_anom P = map Some f /\ f_mba P = map Some f /\ f_rmba P = map Some f.
Proof.
  intros g data pts m line fsys path text lon lat n d sd a faa xs Fp Ee Hn Ht T Ha Hm D A Kf Kd.
  destruct (track_read _ _ _ _ _ _ _ T) as (_ & _ & _ & _ & _ & _ & _ & _ & L1 & L2 & L3 & L4 & L5). rewrite repeat_length in L2. subst n. clear L4 L5.
  rewrite (script_runs _ _ _ _ _ _ _ _ _ _ _ _ _ _ Fp Ee Ht T).
  destruct (proj2 (C95_missing (map l_faa data))) as (ffaa & Ef & Lff & Mf); [rewrite map_length; exact Hn|].
  destruct (embedded m faa (map l_faa data) ffaa Ef) as (anom & -> & La & V1 & V2); [rewrite map_length; exact Hn|rewrite map_length; lia|]. rewrite map_length in V1, V2, Lff, Mf.
  assert (Kn : forall k, (k < len lon)%nat -> exists v, nth k anom None = Some v).
  { intros k Hk. assert (X : nth_error anom k <> Some None).
    { destruct (Nat.lt_ge_cases k (m + 480)) as [H1|H1]; [rewrite V2 by (left; exact H1); apply Kf; left; exact H1|].
      destruct (Nat.le_gt_cases (m + len data) (k + 480)) as [H2|H2]; [rewrite V2 by (right; exact H2); apply Kf; right; exact H2|].
      replace k with (m + (k - m))%nat by lia. rewrite V1 by lia. intros Hx. apply (Mf (k - m)%nat ltac:(lia)) in Hx. destruct Hx as (i & Hi & _).
      unfold missing in Hi. rewrite nth_error_map in Hi. destruct (nth_error data i) as [r|] eqn:Er; [|discriminate]. apply nth_error_In in Er. apply (Kd r Er). cbn in Hi. congruence. }
    rewrite (nth_error_nth' anom None) in X by lia. destruct (nth k anom None) as [v|]; [exists v; reflexivity|congruence]. }
  destruct (profile_runs g lon lat anom _ _ _ xs D A ltac:(lia) ltac:(lia) (repeat_length (Some d) _) (repeat_length (Some sd) _) (repeat_length (Some a) _))
    as (P & EP & X1 & X2 & R1 & R2 & R3 & R4 & E1 & E2 & E3 & E4 & Em & Ec & M1 & M2 & M3 & M4).
  destruct D as (D1 & _ & D0 & _). assert (L' : (2 <= len xs)%nat) by lia. assert (Hpos : 0 < last xs 0) by apply A.
  assert (I0 : In 0 xs) by (rewrite <- D0; apply nth_In; lia).
  assert (Near : forall j, (j < 1000)%nat -> _) by (intros j Hj; exact (distance_or_neighbours xs j (proj1 A) L' I0 Hj)). cbv zeta in Near.
  assert (Cst : forall v r, evenly xs (repeat (Some v) (len lon)) r -> r = map Some (repeat v 1000)).
  { intros v r (E0 & Ek & E). apply (list_eq_nth _ _ _ None); [rewrite map_length, repeat_length; exact E0|]. intros j Hj. rewrite E0 in Hj.
    rewrite (nth_indep (map Some _) None (Some 0)) by (rewrite map_length, repeat_length; lia). rewrite map_nth, nth_repeat_lt by lia.
    destruct (Near j Hj) as [(i & Hi & Ei)|(i & k & Hi & Hk & B & Nb)]; [rewrite (Ek j i Hj Hi Ei); apply nth_repeat_lt; lia|].
    specialize (E j i k Hj Hi Hk B Nb). rewrite !nth_repeat_lt in E by lia. destruct E as (u & -> & Ou). f_equal. unfold on_line in Ou.
    assert (Q : (u - v) * (nth k xs 0 - nth i xs 0) = 0) by lra. apply Rmult_integral in Q. lra. }
  assert (Kf' : ~ In None (f_anom P)).
  { intros I. apply In_nth with (d := None) in I. destruct I as (j & Hj & Hz). rewrite (proj1 E1) in Hj. destruct E1 as (_ & E1k & E1).
    destruct (Near j Hj) as [(i & Hi & Ei)|(i & k & Hi & Hk & B & Nb)]; [rewrite (E1k j i Hj Hi Ei) in Hz; destruct (Kn i ltac:(lia)) as (u & Eu); congruence|].
    specialize (E1 j i k Hj Hi Hk B Nb). destruct (Kn i ltac:(lia)) as (u & Eu). destruct (Kn k ltac:(lia)) as (w & Ew). rewrite Eu, Ew in E1. destruct E1 as (v & V & _). congruence. }
  destruct (all_known _ Kf') as (f & Ff). exists P, f. split; [congruence|]. split; [exact Ff|].
  assert (Lf : len f = 1000%nat) by (pose proof (proj1 E1) as X; rewrite Ff, map_length in X; exact X).
  apply Cst in E2, E3, E4. rewrite Ff, E2, E3, E4, X2 in Em.
  destruct (xobs_cons xs) as (r & Ex). pose proof (xobs_length xs) as Lx. pose proof (xobs_last xs) as Hx. rewrite Ex in Em, Lx, Hx.
  rewrite (C88_flat 0 r f d sd a 1000 Lx ltac:(lia) ltac:(rewrite Hx; lra) Lf Ha) in Em. split; congruence.
Qed.
Print Assumptions C116_flat.
(** Failures: a segment that cannot be extended, no file, a file with less than six columns, a segment of at most 1440 rows, a file with too few rows. *)
Theorem C116_failures : forall g data pts fsys path, Forall2 (fun r p => l_lat r = Some (fst p) /\ l_lon r = Some (snd p)) data pts ->
  (forall e, extended_line g pts = Raise e -> rmba_script g data fsys path = Some (Raise e)) /\
  forall m line, extended_line g pts = Ok (m, line) ->
    (fsys path = None -> rmba_script g data fsys path = Some (Raise FileNotFoundError)) /\
    (forall text rows, fsys path = Some text -> csv_file tab 0 text rows -> ~ wide_enough [0; 1; 2; 3; 4; 5]%nat rows -> rmba_script g data fsys path = Some (Raise ValueError)) /\
    (forall text lon lat dep faa sed age, fsys path = Some text -> track_file text lon lat dep faa sed age ->
       (len data <= 1440)%nat \/ ((1440 < len data)%nat /\ (len lon + 480 < m + len data)%nat /\ (m + 480 < len lon \/ len data <> len lon + 960)%nat) -> rmba_script g data fsys path = Some (Raise ValueError)).
Proof.
  intros g data pts fsys path Fp.
  assert (Ec : combine (map fst pts) (map snd pts) = pts) by (clear; induction pts as [|[x y] pts IH]; [reflexivity|cbn; f_equal; exact IH]).
  assert (F1 : finite (map l_lat data) = Some (map fst pts)) by (apply finite_known; clear - Fp; induction Fp as [|? ? ? ? [? ?] _ IH]; constructor; assumption).
  assert (F2 : finite (map l_lon data) = Some (map snd pts)) by (apply finite_known; clear - Fp; induction Fp as [|? ? ? ? [? ?] _ IH]; constructor; assumption).
  split; [intros e Ee; unfold rmba_script; rewrite F1, F2, Ec, Ee; reflexivity|]. intros m line Ee. split; [|split].
  - intros Hf. unfold rmba_script. rewrite F1, F2, Ec, Ee. unfold open_text. rewrite Hf. reflexivity.
  - intros text rows Hf Hc W. unfold rmba_script. rewrite F1, F2, Ec, Ee. unfold open_text. rewrite Hf. cbn [andthen]. unfold read_track. apply csv_rows_file in Hc. rewrite Hc. unfold read_csv.
    change (map snd (numbered track_names)) with [0; 1; 2; 3; 4; 5]%nat. rewrite (check_columns_bad _ _ W). reflexivity.
  - intros text lon lat dep faa sed age Hf T H. rewrite (script_runs _ _ _ _ _ _ _ _ _ _ _ _ _ _ Fp Ee Hf T).
    destruct (track_read _ _ _ _ _ _ _ T) as (_ & _ & _ & _ & _ & _ & _ & _ & L1 & L2 & L3 & L4 & L5). unfold embed_nan.
    destruct (C95_missing (map l_faa data)) as [S1 S2]. rewrite map_length in S1, S2. destruct H as [H|(H & H1 & H2)]; [rewrite (S1 H); reflexivity|].
    destruct (S2 H) as (y & -> & Ly & _). cbn [bind].
    assert (Lv : len (slice_neg y script_taps script_taps) = (len data - 960)%nat) by (unfold slice_neg, script_taps; rewrite slice_length, Ly; lia).
    unfold loc_assign_nan. rewrite Lv, L3. unfold script_taps. destruct (Nat.eqb_spec (Nat.min (len lon) (m + 480 + (len data - 960)) - (m + 480)) (len data - 960)) as [K|K]; [lia|].
    destruct (Nat.eqb_spec (Nat.min (len lon) (m + 480 + (len data - 960)) - (m + 480)) 0) as [K1|K1]; [|reflexivity]. destruct (Nat.eqb_spec (len data - 960) (len lon)) as [K2|K2]; [|reflexivity]. lia.
Qed.
Print Assumptions C116_failures.
