(** Property C107: the cross-coupling script from the files. *)
From Coq Require Import ZArith QArith Qround Reals Qreals Ascii String Bool Sorted Permutation Lra Lia List.
From Verif Require Import M_Py M_Np M_Str M_Cal M_Ini M_Corr M_Tide M_ReadNav S_ReadNav M_Table S_Table L_Table M_Dgs L_Dgs L_Base
  L_Np L_CC P_CC P_Corr S_Tide M_Faa M_Nan L_Faa P_Faa P_Nan M_CC S_CC M_Up M_Level L_Level P_Level M_Script S_Script L_Script P_Nmea P_ReadNav P_Script P_Equator M_Ccp S_Ccp P_Fit.
Import ListNotations.
Open Scope R_scope.
Local Notation len := List.length.

Definition made (t : datetime) : Prop := exists y m d h mi s us off, datetime_new y m d h mi s us (Some off) = Ok t /\ (-86400000000 < off < 86400000000)%Z.
Lemma made_utc us times : Forall2 utc_of us times -> Forall made times.
Proof. induction 1 as [|i t us times (y & m & d & h & mi & s & u & Hn & _) _ IH]; constructor; [|exact IH]. exists y, m, d, h, mi, s, u, 0%Z. split; [exact Hn|lia]. Qed.
Lemma meter_at argsort T ts us gs : sorts argsort -> table T (len us) -> has_column T (lit "date_time") (map Time ts) -> has_column T (lit "rgrav") (map Num gs) ->
  Forall2 (fun t i => t == i # 1000000)%Q ts us -> Forall in_calendar us ->
  exists times, script_meter argsort (Ok (Some T)) = Ok (take_rows (argsort ts) T, times, map Some (map (fun i => Q2R (nth i gs 0%Q)) (argsort ts))) /\
    mapM cell_time (map (fun i => nth i (map Time ts) NaN) (argsort ts)) = Ok times /\ Permutation (argsort ts) (seq 0 (len us)) /\ Forall made times.
Proof.
  intros So HT Hd Hg Ht HC. destruct (script_meter_at argsort T ts us gs So HT Hd Hg Ht HC) as (times & H1 & [H2 _] & _ & H4 & H5).
  exists times. split; [exact H1|]. split; [exact H5|]. split; [exact H2|exact (made_utc _ _ H4)].
Qed.
Lemma numbers_at T n idx c q : table T n -> has_column T c (map Num q) -> Forall (fun i => (i < n)%nat) idx ->
  numbers (take_rows idx T) c = Some (Ok (map (fun i => Q2R (nth i q 0%Q)) idx)).
Proof.
  intros [N [_ HL]] Hc HI. rewrite Forall_forall in HL, HI. assert (Lq : len q = n) by (specialize (HL _ Hc); cbn [snd] in HL; rewrite map_length in HL; exact HL).
  unfold numbers, get_column. rewrite take_rows_column, (column_has _ _ _ N Hc). cbn [option_map].
  rewrite (mapM_Ok_map _ _ reading (fun c => match c with Num q => Some (Q2R q) | _ => None end)).
  - rewrite map_map. erewrite (map_ext_in _ (fun i => Some (Q2R (nth i q 0%Q)))).
    + rewrite <- (map_map (fun i => Q2R (nth i q 0%Q)) Some), finite_map. reflexivity.
    + intros i Hi. specialize (HI i Hi). rewrite (nth_indep _ NaN (Num 0%Q)) by (rewrite map_length; lia). rewrite map_nth. reflexivity.
  - intros x Hx. apply in_map_iff in Hx. destruct Hx as [i [<- Hi]]. specialize (HI i Hi).
    rewrite (nth_indep _ NaN (Num 0%Q)) by (rewrite map_length; lia). rewrite map_nth. reflexivity.
Qed.

(** The anomaly follows the readings. *)
Lemma corrected_readings grav grav' lon lat times samp n faa full : len grav = n -> len grav' = n -> len lon = n -> len lat = n -> len times = n -> Forall made times ->
  corrected grav lon lat times samp = Ok (faa, full) -> exists faa' full', corrected grav' lon lat times samp = Ok (faa', full') /\ len faa = n /\ len faa' = n /\
  forall k, (k < n)%nat -> nth k faa' 0 = nth k faa 0 + (nth k grav' 0 - nth k grav 0).
Proof.
  intros Lg Lg' Ll La Lt Hm H.
  assert (H3 : (3 <= n)%nat).
  { destruct (le_lt_dec 3 n) as [L|L]; [exact L|]. destruct (C80_failures grav lon lat times samp) as [F _]. rewrite F in H by lia. discriminate. }
  destruct (C27_shape lon lat (repeat 0 n) samp 6378137 6356752.3142 n Ll La (repeat_length _ _) H3) as (E & HE & LE & _).
  assert (X : exists faa' full', corrected grav' lon lat times samp = Ok (faa', full')).
  { unfold corrected in *. rewrite La in *. rewrite HE in *. cbn [bind] in *. destruct (longman_tide_prediction lon lat times (Alt 0) false) as [tc|e]; [|discriminate]. cbn [bind] in *. do 2 eexists. reflexivity. }
  destruct X as (faa' & full' & H').
  destruct (C80_reduction grav lon lat times samp n faa full E Lg Ll La Lt Hm H HE) as (L1 & _ & _).
  destruct (C80_reduction grav' lon lat times samp n faa' full' E Lg' Ll La Lt Hm H' HE) as (L2 & _ & _).
  exists faa', full'. split; [exact H'|]. split; [exact L1|]. split; [exact L2|]. intros k Hk.
  unfold corrected in H, H'. rewrite La in *. rewrite HE in *. cbn [bind] in *. destruct (longman_tide_prediction lon lat times (Alt 0) false) as [tc|e]; [|discriminate]. cbn [bind] in *.
  set (tg := match tc with Total g => g | Components g _ _ => g end) in *. set (lc := map2 (fun l h : R => wgs_grav l + free_air_second_order l h false) lat (repeat 0 n)) in *.
  assert (F : faa = map2 Rplus (map2 Rplus (map2 Rminus grav lc) E) tg) by congruence. assert (F' : faa' = map2 Rplus (map2 Rplus (map2 Rminus grav' lc) E) tg) by congruence.
  assert (Ltg : (n <= len tg)%nat) by (rewrite F, map2_length in L1; lia). assert (Llc : len lc = n) by (unfold lc; rewrite map2_length, repeat_length; lia).
  rewrite F, F'. rewrite !(L_Base.map2_nth _ _ _ _ _ _ _ 0 0) by (rewrite ?map2_length; lia). ring.
Qed.
Lemma anomaly_readings nav rg rg' times tsec bias samp n lon lat faa full : len rg = n -> len rg' = n -> len times = n -> Forall made times ->
  mapM timestamp times = Ok tsec -> finite (fst (sync nav tsec)) = Some lon -> finite (snd (sync nav tsec)) = Some lat ->
  faa_script_nan nav (map Some rg) times bias samp = Ok (faa, full) ->
  exists f f' full', faa = map Some f /\ faa_script_nan nav (map Some rg') times bias samp = Ok (map Some f', full') /\ len f = n /\ len f' = n /\ len lat = n /\
    forall k, (k < n)%nat -> nth k f' 0 = nth k f 0 + (nth k rg' 0 - nth k rg 0).
Proof.
  intros Lr Lr' Lt Hm Ht Hlon Hlat H.
  assert (Ln : len tsec = n). { rewrite timestamps in Ht. assert (E := f_equal (fun r => match r with Ok l => len l | Raise _ => 0%nat end) Ht). cbn beta iota in E. rewrite map_length in E. congruence. }
  assert (Lo : len lon = n). { apply finite_spec in Hlon. apply (f_equal (@List.length _)) in Hlon. unfold sync in Hlon. cbn [fst] in Hlon. rewrite !map_length in Hlon. congruence. }
  assert (La : len lat = n). { apply finite_spec in Hlat. apply (f_equal (@List.length _)) in Hlat. unfold sync in Hlat. cbn [snd] in Hlat. rewrite !map_length in Hlat. congruence. }
  assert (S1 : forall rg, faa_script nav rg times bias samp = Some (corrected (map (fun g => g + bias) rg) lon lat times samp)).
  { intros g. unfold faa_script. rewrite Ht. unfold sync in *. cbn [fst snd] in Hlon, Hlat. rewrite Hlon, Hlat. reflexivity. }
  rewrite (C94_complete nav rg times bias samp _ ltac:(congruence) (S1 rg)) in H. rewrite (C94_complete nav rg' times bias samp _ ltac:(congruence) (S1 rg')).
  destruct (corrected (map (fun g => g + bias) rg) lon lat times samp) as [[f u]|e] eqn:Ec; [|discriminate].
  destruct (corrected_readings (map (fun g => g + bias) rg) (map (fun g => g + bias) rg') lon lat times samp n f u) as (f' & u' & Ec' & L1 & L2 & V); rewrite ?map_length; try assumption.
  rewrite Ec'. exists f, f', (map Some u'). split; [congruence|]. split; [reflexivity|]. split; [exact L1|]. split; [exact L2|]. split; [exact La|]. intros k Hk. rewrite V by exact Hk.
  rewrite !(nth_map _ _ (fun g => g + bias) _ k 0 0) by lia. ring.
Qed.

(** Two records at the same times, with the same monitors; the readings of the second have in addition a combination of the monitors and a constant.
    The corrected anomalies differ by the constant only. *)
Theorem C107_cross_coupling : forall argsort fsys td ship nav_paths dgs_paths dgs_paths' T T' ts us gs gs' vcc ve al ax bias samp s0 cvcc cve cal cax r,
  sorts argsort -> read_dgs_laptop fsys td dgs_paths ship None = Ok (Some T) -> read_dgs_laptop fsys td dgs_paths' ship None = Ok (Some T') ->
  meter_table T us gs -> meter_table T' us gs' -> has_column T (lit "date_time") (map Time ts) -> has_column T' (lit "date_time") (map Time ts) ->
  monitors T vcc ve al ax -> monitors T' vcc ve al ax ->
  (forall j, (j < len us)%nat -> Q2R (nth j gs' 0%Q) = Q2R (nth j gs 0%Q) + s0 -
     (cve * Q2R (nth j ve 0%Q) + cvcc * Q2R (nth j vcc 0%Q) + cal * Q2R (nth j al 0%Q) + cax * Q2R (nth j ax 0%Q))) ->
  ccp_script argsort fsys td ship nav_paths dgs_paths bias samp = Some (Ok r) ->
  determined (d_ve (c_df r)) (d_vcc (c_df r)) (d_al (c_df r)) (d_ax (c_df r)) (d_lev (c_df r)) ->
  exists r', ccp_script argsort fsys td ship nav_paths dgs_paths' bias samp = Some (Ok r') /\ c_level r' = c_level r /\
    forall p p', cc_params (c_df r) p -> cc_params (c_df r') p' -> ccp_anomaly r' p' = map (fun u => u + s0) (ccp_anomaly r p).
Proof.
  intros argsort fsys td ship nav_paths dgs_paths dgs_paths' T T' ts us gs gs' vcc ve al ax bias samp s0 cvcc cve cal cax r So Hr Hr' M M' Hd Hd' (W1 & W2 & W3 & W4) (W1' & W2' & W3' & W4') Hg.
  destruct M as (HT & (tx & Hx & Hxu) & Hgr & HC). destruct M' as (HT' & (tx' & Hx' & Hxu') & Hgr' & _).
  assert (Etx : tx = ts). { pose proof (column_has _ _ _ (proj1 HT) Hx) as Q1. rewrite (column_has _ _ _ (proj1 HT) Hd) in Q1. assert (Q2 : map Time ts = map Time tx) by congruence.
    clear - Q2. revert tx Q2. induction ts as [|a ts IH]; intros [|b tx] Q2; cbn [map] in Q2; try discriminate; [reflexivity|]. f_equal; [congruence|apply IH; congruence]. }
  subst tx. clear tx' Hx' Hxu'.
  destruct (meter_at argsort T ts us gs So HT Hd Hgr Hxu HC) as (times & Em & Et & P & Hm). destruct (meter_at argsort T' ts us gs' So HT' Hd' Hgr' Hxu HC) as (times' & Em' & Et' & _ & _).
  assert (times' = times) by congruence. subst times'. clear Et'.
  set (idx := argsort ts) in *. pose proof (permutation_below _ _ P) as B. set (n := len us) in *.
  assert (Li : len idx = n) by (apply Permutation_length in P; rewrite seq_length in P; exact P).
  assert (Lt : len times = n).
  { clear - Et Li. assert (G : forall (A B : Type) (f : A -> res B) l l', mapM f l = Ok l' -> len l' = len l); [|rewrite (G _ _ _ _ _ Et), map_length; exact Li].
    intros A B f. induction l as [|a l IH]; intros l' H; cbn [mapM] in H; [assert (l' = []) by congruence; subst; reflexivity|].
    destruct (f a) as [b|]; cbn [bind] in H; [|discriminate]. destruct (mapM f l) as [l0|]; cbn [bind] in H; [|discriminate]. assert (l' = b :: l0) by congruence. subst l'. cbn [len]. f_equal. apply IH. reflexivity. }
  unfold ccp_script. rewrite Hr, Hr', Em, Em'. destruct (script_nav fsys ship None true nav_paths) as [nav|e]; [|discriminate]. cbn [andthen fst snd script_anomaly].
  set (rg := map (fun i => Q2R (nth i gs 0%Q)) idx). set (rg' := map (fun i => Q2R (nth i gs' 0%Q)) idx).
  destruct (faa_script_nan nav (map Some rg) times bias samp) as [[faa full]|e] eqn:Ef; cbn [bind andthen fst snd]; [|discriminate].
  destruct (mapM timestamp times) as [tsec|e] eqn:Ets; cbn [andthen]; [|discriminate].
  destruct (finite (fst (sync nav tsec))) as [lon|] eqn:Elon; [|discriminate]. destruct (finite (snd (sync nav tsec))) as [lat|] eqn:Elat; [|destruct (finite faa); discriminate].
  destruct (anomaly_readings nav rg rg' times tsec bias samp n lon lat faa full) as (f & f' & full' & -> & Ef' & Lf & Lf' & La & V); try assumption; try (unfold rg, rg'; rewrite map_length; exact Li).
  rewrite Ef'. cbn [bind andthen fst snd]. rewrite ?Elon, ?Elat, ?finite_map. cbn [andthen].
  destruct (level_script lon lat (map (fun l => wgs_grav l + free_air_second_order l 0 false) lat) samp) as [level|e] eqn:El; cbn [andthen]; [|discriminate].
  rewrite (numbers_at T n idx _ vcc HT W1 B), (numbers_at T' n idx _ vcc HT' W1' B). cbn [andthen].
  rewrite (numbers_at T n idx _ ve HT W2 B), (numbers_at T' n idx _ ve HT' W2' B). cbn [andthen].
  rewrite (numbers_at T n idx _ al HT W3 B), (numbers_at T' n idx _ al HT' W3' B). cbn [andthen].
  rewrite (numbers_at T n idx _ ax HT W4 B), (numbers_at T' n idx _ ax HT' W4' B). cbn [andthen].
  set (xvcc := map (fun i => Q2R (nth i vcc 0%Q)) idx). set (xve := map (fun i => Q2R (nth i ve 0%Q)) idx). set (xal := map (fun i => Q2R (nth i al 0%Q)) idx). set (xax := map (fun i => Q2R (nth i ax 0%Q)) idx).
  assert (Ln : forall q, len (map (fun i => Q2R (nth i q 0%Q)) idx) = n) by (intros q; rewrite map_length; exact Li).
  assert (Llev : len level = n).
  { unfold level_script, level_error in El. destruct (platform_acc lon lat samp) as [pa|]; cbn [bind] in El; [|discriminate]. destruct (up_vecs _ _ _ _ _ _ _ _ _) as [uv|]; cbn [bind] in El; [|discriminate].
    assert (El' := f_equal (fun r => match r with Ok l => len l | Raise _ => 0%nat end) El). cbn beta iota in El'. rewrite ?map_length, seq_length, ?map_length in El'. congruence. }
  destruct (ccp_table f xvcc xve xal xax level) as [df|e] eqn:Et0; cbn [andthen]; [|discriminate].
  intros Er Hdet. assert (Er' : r = mk_ccp (take_rows idx T) f xvcc xve xal xax level df) by congruence. subst r. cbn [c_df c_level] in *.
  destruct (C106_correction f f' xvcc xve xal xax level n df s0 0 0 cve cvcc cal cax Lf Lf' (Ln _) (Ln _) (Ln _) (Ln _) Llev) as (df' & Edf & Q); [|exact Et0|exact Hdet|].
  - intros k Hk. rewrite V by lia. assert (N : forall q, nth (k + 2) (map (fun i => Q2R (nth i q 0%Q)) idx) 0 = Q2R (nth (nth (k + 2) idx 0%nat) q 0%Q)) by (intros q; apply (nth_map _ _ (fun i => Q2R (nth i q 0%Q)) idx (k + 2) 0 0%nat); lia).
    unfold rg, rg', xvcc, xve, xal, xax. rewrite !N. rewrite Forall_forall in B. rewrite Hg by (apply B; apply nth_In; lia). ring.
  - rewrite Edf. cbn [andthen]. eexists. split; [reflexivity|]. split; [reflexivity|]. cbn [c_df]. intros p p' Hp Hp'. unfold ccp_anomaly. cbn [c_faa c_vcc c_ve c_al c_ax].
    assert (Lc : forall p f, len f = n -> len (faa_ccp p f xvcc xve xal xax) = (n - 2)%nat) by (intros q g Lg; unfold faa_ccp; rewrite map_length, seq_length, skipn_length, Lg; reflexivity).
    apply (nth_ext _ _ 0 0); [rewrite map_length, !Lc by assumption; reflexivity|]. rewrite Lc by assumption. intros k Hk. destruct (Q p p' Hp Hp' k ltac:(lia)) as (u & u' & U & U' & E).
    rewrite (nth_error_nth _ _ 0 U'). rewrite (nth_error_nth _ _ 0 (map_nth_error (fun u => u + s0) _ _ U)). rewrite E. ring.
Qed.
Print Assumptions C107_cross_coupling.

(** A ship on a steady course along a parallel, readings at even intervals: the script finds no level error; a table of fewer than 1002 rows it refuses. *)
Theorem C107_steady : forall argsort fsys td ship tk nav_paths files dgs_paths T us gs vcc ve al ax bias y l0 q i0 step,
  sorts argsort -> known_ship ship -> talker_for ship None tk -> Forall2 (provides fsys ship tk None) nav_paths files -> along_parallel files y l0 q i0 ->
  read_dgs_laptop fsys td dgs_paths ship None = Ok (Some T) -> meter_table T us gs -> monitors T vcc ve al ax -> (11 <= len us)%nat ->
  (0 < step)%Z -> Permutation us (map (fun k => i0 + step * Z.of_nat k)%Z (seq 0 (len us))) ->
  let samp := 1000000 / IZR step in
  ((len us < 1002)%nat -> ccp_script argsort fsys td ship nav_paths dgs_paths bias samp = Some (Raise ValueError)) /\
  ((1002 <= len us)%nat -> exists r idx full, ccp_script argsort fsys td ship nav_paths dgs_paths bias samp = Some (Ok r) /\
     time_order us idx /\ rearranged idx T (c_data r) /\
     c_vcc r = map (fun i => Q2R (nth i vcc 0%Q)) idx /\ c_ve r = map (fun i => Q2R (nth i ve 0%Q)) idx /\
     c_al r = map (fun i => Q2R (nth i al 0%Q)) idx /\ c_ax r = map (fun i => Q2R (nth i ax 0%Q)) idx /\ c_level r = repeat 0 (len us) /\
     dgs_script argsort fsys td ship None true nav_paths dgs_paths bias samp = Ok (c_data r, map Some (c_faa r), full)).
Proof.
  intros argsort fsys td ship tk nav_paths files dgs_paths T us gs vcc ve al ax bias y l0 q i0 step So Hs Ht Hp Ha Hr M (W1 & W2 & W3 & W4) H11 Hst Pu samp.
  destruct (parallel_nav fsys ship None true nav_paths tk files y l0 q i0 Hs Ht Hp Ha) as (nav & En & A & H2 & F).
  destruct M as (HT & (ts & Hd & Htu) & Hg & HC).
  destruct (script_meter_at argsort T ts us gs So HT Hd Hg Htu HC) as (times & Em & O & Rr & Ft & _).
  set (idx := argsort ts) in *. set (n := len us) in *.
  pose proof (even_order us idx i0 step Hst O Pu) as Eu. fold n in Eu. pose proof (permutation_below _ _ (proj1 O)) as B. fold n in B.
  assert (Li : len idx = n) by (destruct O as [O _]; apply Permutation_length in O; rewrite seq_length in O; exact O).
  assert (Lt : len times = n). { pose proof (F2_len _ _ _ _ _ Ft) as L. rewrite map_length in L. lia. }
  set (rg := map (fun i => Q2R (nth i gs 0%Q)) idx) in *. assert (Lr : len rg = n) by (unfold rg; rewrite map_length; exact Li).
  assert (Rs : 0 < IZR step) by (apply (IZR_lt 0); exact Hst).
  assert (Ets : map (fun t => match utcoffset t with Some off => IZR (utc_us t off) / 1000000 | None => IZR (local_us t) / 1000000 end) times
                = map (fun k => IZR i0 / 1000000 + INR k / samp) (seq 0 n)).
  { transitivity (map (fun i => IZR i / 1000000) (map (fun i => nth i us 0%Z) idx)).
    - clear - Ft. induction Ft as [|i t l l' U _ IH]; [reflexivity|]. cbn [map]. rewrite IH. f_equal. destruct (utc_time_us t i (proj1 (utc_of_time _ _) U)) as [-> ->]. reflexivity.
    - rewrite Eu, map_map. apply map_ext. intros k. unfold samp. rewrite plus_IZR, mult_IZR, <- INR_IZR_INZ. field. lra. }
  set (tsec := map (fun k => IZR i0 / 1000000 + INR k / samp) (seq 0 n)) in *.
  rewrite Forall_forall in F.
  set (lon := map (fun j => l0 + q * 180 / PI * (INR j / samp)) (seq 0 n)).
  assert (Slon : fst (sync nav tsec) = map Some lon).
  { unfold sync, tsec, lon. cbn [fst]. rewrite !map_map. apply map_ext. intros j.
    rewrite (interp1d_affine _ _ (l0 - q * 180 / PI * (IZR i0 / 1000000)) (q * 180 / PI) _ A); rewrite ?map_length; auto.
    - f_equal. unfold Rdiv. ring.
    - intros m Hm. destruct (nth_error nav m) as [f|] eqn:Ef; [|apply nth_error_None in Ef; lia].
      rewrite (nth_error_nth (map f_lon nav) m None (x := f_lon f)) by (rewrite nth_error_map, Ef; reflexivity).
      rewrite (nth_error_nth (map f_time nav) m 0 (x := f_time f)) by (rewrite nth_error_map, Ef; reflexivity).
      rewrite (proj1 (F f (nth_error_In _ _ Ef))). f_equal. ring. }
  assert (Slat : snd (sync nav tsec) = map Some (repeat y n)).
  { unfold sync. cbn [snd]. rewrite (const_positions (map f_time nav) y n A) by (unfold tsec; rewrite ?map_length, ?seq_length; auto; intros o Ho; apply in_map_iff in Ho; destruct Ho as (f & <- & If); apply (F f If)).
    reflexivity. }
  assert (Llo : len lon = n) by (unfold lon; rewrite map_length, seq_length; reflexivity).
  destruct (C27_shape lon (repeat y n) (repeat 0 n) samp 6378137 6356752.3142 n Llo (repeat_length _ _) (repeat_length _ _) ltac:(lia)) as (E & HE & LE & _).
  destruct (nth_error times 0) as [tm|] eqn:Etm; [|apply nth_error_None in Etm; lia].
  assert (U0 : exists i, utc_time tm i). { clear - Ft Etm. destruct Ft as [|i t l l' U _]; [discriminate|]. cbn [nth_error] in Etm. assert (t = tm) by congruence. subst t. exists i. exact (proj1 (utc_of_time _ _) U). }
  destruct U0 as [iu Hu]. destruct (centuries iu) as [c Hc].
  assert (Aw : Forall (fun t => utcoffset t <> None) times).
  { clear - Ft. induction Ft as [|i t l l' U _ IH]; constructor; [|exact IH]. destruct (utc_time_us t i (proj1 (utc_of_time _ _) U)) as [-> _]. discriminate. }
  destruct (faa_at (map (fun g => g + bias) rg) lon (repeat y n) times samp n E 0 tm iu c) as (faa & full & Ec & Lf & _ & _); rewrite ?map_length, ?repeat_length; try assumption; try lia; try reflexivity.
  assert (Ef : faa_script nav rg times bias samp = Some (Ok (faa, full))).
  { unfold faa_script. rewrite timestamps, Ets. destruct (sync nav tsec) as [a b]. cbn [fst snd] in Slon, Slat. subst a b. rewrite !finite_map, Ec. reflexivity. }
  pose proof (C94_complete nav rg times bias samp _ ltac:(congruence) Ef) as Efn. cbn beta iota in Efn.
  set (lc := map (fun l => wgs_grav l + free_air_second_order l 0 false) (repeat y n)).
  assert (El : level_script lon (repeat y n) lc samp = Ok (repeat 0 n)).
  { apply (C83_steady lon y lc samp n l0 (q * 180 / PI / samp)); [exact Llo|unfold lc; rewrite map_length, repeat_length; reflexivity|exact H11| |].
    - unfold lc. intros I. apply in_map_iff in I. destruct I as (l & I & _). rewrite C31_zero_height in I. pose proof (proj2 (proj2 C32_equator_and_poles) l). lra.
    - intros k Hk. unfold lon. rewrite (nth_map _ _ (fun j => l0 + q * 180 / PI * (INR j / samp)) _ k 0 0%nat) by (rewrite seq_length; exact Hk). rewrite seq_nth by exact Hk. cbn [Nat.add]. unfold Rdiv. ring. }
  assert (Ln : forall v, len (map (fun i => Q2R (nth i v 0%Q)) idx) = n) by (intros v; rewrite map_length; exact Li).
  destruct C84_rows as (h & d & _ & _ & C84).
  destruct (C84 faa (map (fun i => Q2R (nth i vcc 0%Q)) idx) (map (fun i => Q2R (nth i ve 0%Q)) idx) (map (fun i => Q2R (nth i al 0%Q)) idx) (map (fun i => Q2R (nth i ax 0%Q)) idx)
    (repeat 0 n) n Lf (Ln _) (Ln _) (Ln _) (Ln _) (repeat_length _ _)) as [D1 D2]. clear C84.
  assert (G : ccp_script argsort fsys td ship nav_paths dgs_paths bias samp =
    some df <- Some (ccp_table faa (map (fun i => Q2R (nth i vcc 0%Q)) idx) (map (fun i => Q2R (nth i ve 0%Q)) idx) (map (fun i => Q2R (nth i al 0%Q)) idx) (map (fun i => Q2R (nth i ax 0%Q)) idx) (repeat 0 n));
    Some (Ok (mk_ccp (take_rows idx T) faa (map (fun i => Q2R (nth i vcc 0%Q)) idx) (map (fun i => Q2R (nth i ve 0%Q)) idx) (map (fun i => Q2R (nth i al 0%Q)) idx) (map (fun i => Q2R (nth i ax 0%Q)) idx) (repeat 0 n) df))).
  { unfold ccp_script. rewrite En. cbn [andthen]. rewrite Hr, Em. cbn [andthen fst snd script_anomaly]. rewrite Efn. cbn [bind andthen fst snd]. rewrite timestamps, Ets. cbn [andthen].
    rewrite Slon, Slat, !finite_map. fold lc. rewrite El. cbn [andthen].
    rewrite (numbers_at T n idx _ vcc HT W1 B). cbn [andthen]. rewrite (numbers_at T n idx _ ve HT W2 B). cbn [andthen].
    rewrite (numbers_at T n idx _ al HT W3 B). cbn [andthen]. rewrite (numbers_at T n idx _ ax HT W4 B). cbn [andthen]. reflexivity. }
  split; intros Hn.
  - rewrite G, (D1 Hn). reflexivity.
  - destruct (D2 Hn) as (df & Edf & _). rewrite G, Edf. cbn [andthen]. eexists. exists idx, (map Some full). split; [reflexivity|]. cbn [c_data c_vcc c_ve c_al c_ax c_level c_faa].
    split; [exact O|]. split; [exact Rr|]. repeat (split; [reflexivity|]). unfold dgs_script. rewrite En. cbn [bind]. rewrite Hr, Em. cbn [bind]. unfold script_anomaly. rewrite Efn. reflexivity.
Qed.
Print Assumptions C107_steady.

(** Two records of 1002 seconds along the equator: steady readings; and readings 50 mGal higher less two of the monitors.  The monitors are sums of sums of 1. *)
Definition digit (n : Z) : ascii := ascii_of_N (Z.to_N (48 + n)).
Fixpoint shown (fuel : nat) (z : Z) (rest : str) : str :=
  match fuel with O => rest | S f => let rest := digit (z mod 10) :: rest in if (z <? 10)%Z then rest else shown f (z / 10)%Z rest end.
Definition text_of (z : Z) : str := if (z <? 0)%Z then "-"%char :: shown 20 (- z) [] else shown 20 z [].
Fixpoint sums (acc : Z) (l : list Z) : list Z := match l with [] => [] | z :: l => acc :: sums (acc + z)%Z l end.
Fixpoint rungs (n p : nat) : list Z := match p with O => repeat 1%Z n | S q => sums 0 (rungs n q) end.
Definition cc_col (p : nat) : list Z := (0 :: 0 :: rungs 1000 p)%Z.
Definition cc_line (g : Z) (k : nat) (m : Z * Z * Z * Z) : str :=
  let t := (36931 + Z.of_nat k)%Z in let '(ve, vcc, al, ax) := m in
  lit "1," ++ text_of g ++ lit ",-2,3,4,5,6,7,8,9," ++ text_of ve ++ lit "," ++ text_of vcc ++ lit "," ++ text_of al ++ lit "," ++ text_of ax ++
  lit ",14,15,16,17,18,2024,2,29," ++ text_of (t / 3600) ++ lit "," ++ text_of (t / 60 mod 60) ++ lit "," ++ text_of (t mod 60) ++ lit ",25" ++ [nl].
Definition cc_text (gs : list Z) : str :=
  concat (map (fun '(g, (k, m)) => cc_line g k m) (combine gs (combine (seq 0 1002) (combine (combine (combine (cc_col 3) (cc_col 4)) (cc_col 5)) (cc_col 6))))).
Definition cc_one : list Z := repeat 9800%Z 1002.
Definition cc_two : list Z := map (fun m => 9850 - fst m - 2 * snd m)%Z (combine (cc_col 4) (cc_col 6)).
Definition cc_files (p : str) : option str :=
  if str_eqb p (lit "n") then Some eq_text else if str_eqb p (lit "one") then Some (cc_text cc_one) else if str_eqb p (lit "two") then Some (cc_text cc_two) else None.
Definition nums (l : list Z) : list cell := map Num (map inject_Z l).
Definition cc_table_of (gs : list Z) : frame :=
  let c z := nums (repeat z 1002) in let t := map (fun k => 36931 + Z.of_nat k)%Z (seq 0 1002) in
  [(lit "rgrav", nums gs); (lit "long_a", c (-2)%Z); (lit "crss_a", c 3%Z); (lit "status", c 6%Z); (lit "ve", nums (cc_col 3)); (lit "vcc", nums (cc_col 4)); (lit "al", nums (cc_col 5)); (lit "ax", nums (cc_col 6));
   (lit "lat", c 14%Z); (lit "lon", c 15%Z); (lit "year", c 2024%Z); (lit "month", c 2%Z); (lit "day", c 29%Z); (lit "hour", nums (map (fun t => t / 3600)%Z t)); (lit "minute", nums (map (fun t => t / 60 mod 60)%Z t));
   (lit "second", nums (map (fun t => t mod 60)%Z t)); (lit "date_time", map Time (map (fun k => inject_Z (1709201731 + Z.of_nat k)) (seq 0 1002)))].
Lemma cc_read_one : read_dgs_laptop cc_files case_dates [lit "one"] (lit "Atlantis") None = Ok (Some (cc_table_of cc_one)).
Proof. vm_cast_no_check (@eq_refl _ (@Ok (option frame) (Some (cc_table_of cc_one)))). Qed.
Lemma cc_read_two : read_dgs_laptop cc_files case_dates [lit "two"] (lit "Atlantis") None = Ok (Some (cc_table_of cc_two)).
Proof. vm_cast_no_check (@eq_refl _ (@Ok (option frame) (Some (cc_table_of cc_two)))). Qed.
Lemma sums_length acc l : len (sums acc l) = len l.
Proof. revert acc. induction l as [|z l IH]; intros acc; [reflexivity|]. cbn [sums len]. rewrite IH. reflexivity. Qed.
Lemma rungs_length n p : len (rungs n p) = n.
Proof. induction p as [|p IH]; [apply repeat_length|]. cbn [rungs]. rewrite sums_length. exact IH. Qed.
Lemma rungs_climb n p : map IZR (rungs n p) = climb n p.
Proof.
  induction p as [|p IH]; cbn [rungs].
  - unfold climb. cbn [ladder]. generalize 0%nat. induction n as [|n IHn]; intros s; [reflexivity|]. cbn [repeat map seq]. f_equal. apply IHn.
  - assert (G : forall l s acc, map IZR l = map (ladder p) (seq s (len l)) -> IZR acc = ladder (S p) s -> map IZR (sums acc l) = map (ladder (S p)) (seq s (len l))).
    { induction l as [|z l IHl]; intros s acc E A; [reflexivity|]. cbn [sums map len seq] in *. f_equal; [exact A|]. apply IHl; [congruence|].
      rewrite plus_IZR, A. replace (S s) with (s + 1)%nat by lia. rewrite ladder_step. f_equal. congruence. }
    unfold climb. rewrite (G _ 0%nat 0%Z), rungs_length; [reflexivity| |reflexivity]. rewrite IH, rungs_length. reflexivity.
Qed.
Lemma cc_rows_of gs : len gs = 1002%nat -> table (cc_table_of gs) 1002.
Proof.
  intros L. assert (N : forall l, len l = 1002%nat -> len (nums l) = 1002%nat) by (intros l Hl; unfold nums; rewrite !map_length; exact Hl).
  assert (C : forall p, len (cc_col p) = 1002%nat) by (intros p; unfold cc_col; cbn [len]; rewrite rungs_length; reflexivity).
  assert (Q : forall f : Z -> Z, len (map f (map (fun k : nat => (36931 + Z.of_nat k)%Z) (seq 0 1002))) = 1002%nat) by (intros f; rewrite !map_length, seq_length; reflexivity).
  split; [apply nodupb_ok; reflexivity|]. split; [discriminate|]. unfold cc_table_of. cbv zeta.
  repeat (apply Forall_cons; [cbn [snd]; first [apply N; first [exact L|apply C|apply repeat_length|apply Q]|rewrite !map_length, seq_length; reflexivity]|]). constructor.
Qed.
Definition cc_us : list Z := map (fun k => 1709201731000000 + 1000000 * Z.of_nat k)%Z (seq 0 1002).
Lemma cc_meter gs : len gs = 1002%nat -> meter_table (cc_table_of gs) cc_us (map inject_Z gs) /\ has_column (cc_table_of gs) (lit "date_time") (map Time (map (fun k => inject_Z (1709201731 + Z.of_nat k)) (seq 0 1002))) /\
  monitors (cc_table_of gs) (map inject_Z (cc_col 4)) (map inject_Z (cc_col 3)) (map inject_Z (cc_col 5)) (map inject_Z (cc_col 6)).
Proof.
  intros L. assert (Lu : len cc_us = 1002%nat) by (unfold cc_us; rewrite map_length, seq_length; reflexivity).
  assert (D : has_column (cc_table_of gs) (lit "date_time") (map Time (map (fun k => inject_Z (1709201731 + Z.of_nat k)) (seq 0 1002)))) by (do 16 right; left; reflexivity).
  split; [|split; [exact D|]].
  - split; [rewrite Lu; exact (cc_rows_of gs L)|]. split; [|split].
    + eexists. split; [exact D|]. unfold cc_us. generalize (seq 0 1002). induction l as [|k l IH]; constructor; [|exact IH]. unfold Qeq, inject_Z. cbn [Qnum Qden]. lia.
    + left. reflexivity.
    + apply Forall_forall. intros i Hi. apply in_map_iff in Hi. destruct Hi as [k [<- Hk]]. apply in_seq in Hk. unfold in_calendar. lia.
  - split; [do 5 right; left; reflexivity|]. split; [do 4 right; left; reflexivity|]. split; [do 6 right; left; reflexivity|do 7 right; left; reflexivity].
Qed.
Lemma cc_order idx : time_order cc_us idx -> idx = seq 0 1002.
Proof.
  intros [P So]. assert (Lu : len cc_us = 1002%nat) by (unfold cc_us; rewrite map_length, seq_length; reflexivity). rewrite Lu in P.
  assert (U : forall i, (i < 1002)%nat -> nth i cc_us 0%Z = (1709201731000000 + 1000000 * Z.of_nat i)%Z).
  { intros i Hi. unfold cc_us. rewrite (nth_map _ _ (fun k => 1709201731000000 + 1000000 * Z.of_nat k)%Z _ i 0%Z 0%nat) by (rewrite seq_length; exact Hi). rewrite seq_nth by exact Hi. reflexivity. }
  pose proof (permutation_below _ _ P) as B. assert (Nd : NoDup idx) by (apply (Permutation_NoDup (Permutation_sym P)); apply seq_NoDup).
  apply (L_Dateline.sorted_unique nat Nat.lt); [intros; lia|intros; lia| | |].
  - clear P. induction So as [|i idx So IH F]; constructor; [apply IH; [inversion B; assumption|inversion Nd; assumption]|].
    inversion B as [|? ? Bi Bl]; subst. inversion Nd as [|? ? Ni _]; subst. rewrite Forall_forall in *. intros j Hj. specialize (F j Hj). rewrite !U in F by auto.
    assert (i <> j) by (intros ->; exact (Ni Hj)). unfold Nat.lt. lia.
  - generalize 0%nat at 1. generalize 1002%nat. induction n as [|m IH]; intros s; cbn [seq]; constructor; [apply IH|]. apply Forall_forall. intros j Hj. apply in_seq in Hj. unfold Nat.lt. lia.
  - intros z. split; apply Permutation_in; [exact P|exact (Permutation_sym P)].
Qed.
Lemma ccp_script_table argsort fsys td ship nav_paths dgs_paths bias samp r : ccp_script argsort fsys td ship nav_paths dgs_paths bias samp = Some (Ok r) ->
  ccp_table (c_faa r) (c_vcc r) (c_ve r) (c_al r) (c_ax r) (c_level r) = Ok (c_df r).
Proof.
  unfold ccp_script. destruct (script_nav _ _ _ _ _) as [nav|]; cbn [andthen]; [|discriminate]. destruct (script_meter _ _) as [m|]; cbn [andthen]; [|discriminate].
  destruct (script_anomaly _ _ _ _) as [a|]; cbn [andthen]; [|discriminate]. destruct (mapM timestamp _) as [tsec|]; cbn [andthen]; [|discriminate].
  destruct (finite _) as [lon|]; [|discriminate]. destruct (finite _) as [lat|]; [|discriminate]. destruct (finite _) as [faa|]; [|discriminate].
  destruct (level_script _ _ _ _) as [lev|]; cbn [andthen]; [|discriminate].
  do 4 (destruct (numbers _ _) as [[?|]|]; cbn [andthen]; try discriminate).
  destruct (ccp_table _ _ _ _ _ _) as [df|] eqn:E; cbn [andthen]; [|discriminate]. intros H.
  assert (X := f_equal (fun o => match o with Some (Ok r) => r | _ => r end) H). cbn beta iota in X. subst r. exact E.
Qed.
Lemma cc_column p : map (fun i => Q2R (nth i (map inject_Z (cc_col p)) 0%Q)) (seq 0 1002) = 0 :: 0 :: climb 1000 p.
Proof.
  assert (E : map IZR (cc_col p) = 0 :: 0 :: climb 1000 p) by (unfold cc_col; cbn [map]; rewrite rungs_climb; reflexivity). rewrite <- E.
  assert (L : len (cc_col p) = 1002%nat) by (unfold cc_col; cbn [len]; rewrite rungs_length; reflexivity).
  apply (nth_ext _ _ 0 0); [rewrite !map_length, seq_length; congruence|]. rewrite map_length, seq_length. intros k Hk.
  rewrite (nth_map _ _ (fun i => Q2R (nth i (map inject_Z (cc_col p)) 0%Q)) _ k 0 0%nat) by (rewrite seq_length; exact Hk). rewrite seq_nth by exact Hk. cbn [Nat.add].
  rewrite (nth_map _ _ inject_Z _ k 0%Q 0%Z) by lia. rewrite (nth_map _ _ IZR _ k 0 0%Z) by lia. unfold Q2R, inject_Z. cbn [Qnum Qden]. field.
Qed.
Lemma cc_determined faa df : len faa = 1002%nat -> ccp_table faa (0 :: 0 :: climb 1000 4) (0 :: 0 :: climb 1000 3) (0 :: 0 :: climb 1000 5) (0 :: 0 :: climb 1000 6) (repeat 0 1002) = Ok df ->
  determined (d_ve df) (d_vcc df) (d_al df) (d_ax df) (d_lev df).
Proof.
  intros Lf E. unfold ccp_table in E. rewrite <- (cc_table_trunc _ _ _ _ _ _ 1000) in E by (rewrite skipn_length, Lf; reflexivity).
  set (lev := firstn 1000 (repeat 0 1002)) in E. assert (Llev : len lev = 1000%nat) by (unfold lev; rewrite firstn_length, repeat_length; reflexivity).
  assert (Hz : forall k, nth k lev 0 = 0).
  { intros k. assert (I : forall x, In x lev -> x = 0) by (intros x Hx; apply (repeat_spec 1002); rewrite <- (firstn_skipn 1000); apply in_or_app; left; exact Hx).
    destruct (Nat.lt_ge_cases k (len lev)) as [Hk|Hk]; [apply I; apply nth_In; exact Hk|apply nth_overflow; exact Hk]. }
  clearbody lev.
  set (faa2 := skipn 2 faa) in *. assert (Lf2 : len faa2 = 1000%nat) by (unfold faa2; rewrite skipn_length, Lf; reflexivity). clearbody faa2. cbn [skipn] in E.
  assert (Lc : forall p, len (climb 1000 p) = 1000%nat) by (intros p; unfold climb; rewrite map_length, seq_length; reflexivity).
  unfold cc_table, end_inds, used_bounds, seg_bounds in E. rewrite Lf2 in E. cbn [map combine filter fst snd] in E. rewrite Nat.min_id, Nat.sub_0_r in E.
  destruct (Nat.ltb_spec 1000 1000) as [?|_]; [lia|]. cbn [negb] in E. apply ok_inj in E. subst df. cbn [d_ve d_vcc d_al d_ax d_lev d_g].
  assert (B : forall x : list R, len x = 1000%nat -> Forall (fun ab => (fst ab + 1000 <= snd ab <= len x)%nat) [(0, 1000)%nat]) by (intros x Hx; constructor; [cbn [fst snd]; lia|constructor]).
  rewrite !cc_series_rows by (apply B; auto). unfold curvature_rows. cbn [map concat fst snd]. rewrite !app_nil_r, !climb_rows by lia.
  intros c0 c1 c2 c3 c4 c5 H. rewrite map_length, seq_length in H.
  destruct (climb_independent (1000 - 420) ltac:(lia) c0 c1 c2 c3 c4 0) as (_ & I1 & I2 & I3 & I4 & _); [|auto].
  rewrite map_length, seq_length. intros i Hi. specialize (H i Hi).
  set (u := nth i (map (fun r => curvature lp dw lev (0 + 1 + r)) (seq 0 (1000 - 0 - 420))) 0) in H. assert (Z0 : u = 0).
  { unfold u. rewrite nth_map_seq by lia. change (cf lp dw (fun k => nth k lev 0) (0 + 1 + i) = 0).
    rewrite (cf_ext lp dw _ (fun k => 0 + 0 * INR k + 0 * INR k ^ 2)) by (intros k _; rewrite Hz; ring).
    rewrite (cf_quadratic lp dw 0 0 0 _ dw_differentiates (proj1 lp_low_pass)). ring. }
  rewrite Z0 in H. lra.
Qed.
Lemma cc_provided : Forall2 (provides cc_files (lit "Atlantis") gp None) [lit "n"] [eq_data].
Proof. constructor; [|constructor]. exists eq_text. eexists. split; [reflexivity|]. split; [exact eq_lines|exact eq_file]. Qed.
Lemma cc_run gs path : len gs = 1002%nat -> read_dgs_laptop cc_files case_dates [path] (lit "Atlantis") None = Ok (Some (cc_table_of gs)) ->
  exists r p, ccp_script insertion_sort cc_files case_dates (lit "Atlantis") [lit "n"] [path] 970000 1 = Some (Ok r) /\ c_level r = repeat 0 1002 /\
    determined (d_ve (c_df r)) (d_vcc (c_df r)) (d_al (c_df r)) (d_ax (c_df r)) (d_lev (c_df r)) /\ cc_params (c_df r) p.
Proof.
  intros L1 Hr. destruct (cc_meter gs L1) as (M1 & D1 & W1).
  assert (Lu : len cc_us = 1002%nat) by (unfold cc_us; rewrite map_length, seq_length; reflexivity).
  destruct (C107_steady insertion_sort cc_files case_dates (lit "Atlantis") gp [lit "n"] [eq_data] [path] (cc_table_of gs) cc_us _ _ _ _ _ 970000 0 eq_l0 eq_q 1709201731000000 1000000
    insertion_sort_sorts case_ship case_talker cc_provided eq_along Hr M1 W1 ltac:(rewrite Lu; lia) eq_refl) as [_ G].
  { rewrite Lu. reflexivity. }
  destruct (G ltac:(rewrite Lu; lia)) as (r & idx & full & E & O & _ & V1 & V2 & V3 & V4 & V5 & Ef). clear G. apply cc_order in O. subst idx.
  replace (1000000 / IZR 1000000) with 1 in E, Ef by field. rewrite Lu in V5. rewrite cc_column in V1, V2, V3, V4.
  pose proof (ccp_script_table _ _ _ _ _ _ _ _ _ E) as Et. rewrite V1, V2, V3, V4, V5 in Et.
  assert (Lf : len (c_faa r) = 1002%nat).
  { destruct (C103_equator insertion_sort cc_files case_dates (lit "Atlantis") None gp true [lit "n"] [eq_data] [path] (cc_table_of gs) cc_us _ 970000 eq_l0 eq_q 1709201731000000 1000000
      insertion_sort_sorts case_ship case_talker cc_provided eq_along Hr M1 ltac:(rewrite Lu; lia) eq_refl) as (idx & T' & faa & full' & Ed & _ & _ & L & _); [rewrite Lu; reflexivity|].
    replace (1000000 / IZR 1000000) with 1 in Ed by field. rewrite Ef in Ed.
    assert (X := f_equal (fun r => match r with Ok (_, f, _) => len f | Raise _ => 0%nat end) Ed). cbn beta iota in X. rewrite map_length, L, Lu in X. exact X. }
  assert (P : exists p, cc_params (c_df r) p).
  { pose proof Et as Et2. unfold ccp_table in Et2. rewrite <- (cc_table_trunc _ _ _ _ _ _ 1000) in Et2 by (rewrite skipn_length, Lf; reflexivity).
    assert (Lc : forall p, len (skipn 2 (0 :: 0 :: climb 1000 p)) = 1000%nat) by (intros p; cbn [skipn]; unfold climb; rewrite map_length, seq_length; reflexivity).
    assert (Lz : len (firstn 1000 (repeat 0 1002)) = 1000%nat) by (rewrite firstn_length, repeat_length; reflexivity).
    assert (Lq : len (skipn 2 (c_faa r)) = 1000%nat) by (rewrite skipn_length, Lf; reflexivity).
    assert (No : forall ts : list R, None = Some ts -> len ts = 1000%nat) by discriminate.
    destruct (C106_fit_exists _ _ _ _ _ _ _ _ _ (c_df r) Lq (Lc 4%nat) (Lc 3%nat) (Lc 5%nat) (Lc 6%nat) Lz No Et2) as (p & Hp & _).
    exists p. exact Hp. }
  destruct P as [p Hp]. exists r, p. split; [exact E|]. split; [exact V5|]. split; [exact (cc_determined _ _ Lf Et)|exact Hp].
Qed.
Example C107_case : exists r r', ccp_script insertion_sort cc_files case_dates (lit "Atlantis") [lit "n"] [lit "one"] 970000 1 = Some (Ok r) /\
  ccp_script insertion_sort cc_files case_dates (lit "Atlantis") [lit "n"] [lit "two"] 970000 1 = Some (Ok r') /\ c_level r = repeat 0 1002 /\
  exists p p', cc_params (c_df r) p /\ cc_params (c_df r') p' /\ ccp_anomaly r' p' = map (fun u => u + 50) (ccp_anomaly r p).
Proof.
  assert (L1 : len cc_one = 1002%nat) by apply repeat_length.
  assert (Lc : forall p, len (cc_col p) = 1002%nat) by (intros p; unfold cc_col; cbn [len]; rewrite rungs_length; reflexivity).
  assert (L2 : len cc_two = 1002%nat) by (unfold cc_two; rewrite map_length, combine_length, !Lc; reflexivity).
  destruct (cc_meter cc_one L1) as (M1 & D1 & W1). destruct (cc_meter cc_two L2) as (M2 & D2 & W2).
  assert (Lu : len cc_us = 1002%nat) by (unfold cc_us; rewrite map_length, seq_length; reflexivity).
  destruct (cc_run cc_one (lit "one") L1 cc_read_one) as (r & p & E & V5 & Dt & Hp). destruct (cc_run cc_two (lit "two") L2 cc_read_two) as (r2 & p2 & E2 & _ & _ & Hp2).
  destruct (C107_cross_coupling insertion_sort cc_files case_dates (lit "Atlantis") [lit "n"] [lit "one"] [lit "two"] (cc_table_of cc_one) (cc_table_of cc_two) _ cc_us _ _ _ _ _ _ 970000 1 50 1 0 0 2 r
    insertion_sort_sorts cc_read_one cc_read_two M1 M2 D1 D2 W1 W2) as (r' & E' & V6 & H); [| exact E|exact Dt|].
  - rewrite Lu. intros j Hj.
    assert (N : forall l, len l = 1002%nat -> Q2R (nth j (map inject_Z l) 0%Q) = IZR (nth j l 0%Z)).
    { intros l Ll. rewrite (nth_map _ _ inject_Z _ j 0%Q 0%Z) by lia. unfold Q2R, inject_Z. cbn [Qnum Qden]. field. }
    rewrite !N by auto. assert (N1 : nth j cc_one 0%Z = 9800%Z) by (apply (repeat_spec 1002); apply nth_In; rewrite repeat_length; exact Hj). rewrite N1. unfold cc_two.
    rewrite (nth_map _ _ (fun m => 9850 - fst m - 2 * snd m)%Z _ j 0%Z (0, 0)%Z) by (rewrite combine_length, !Lc; exact Hj). rewrite combine_nth by (rewrite !Lc; reflexivity). cbn [fst snd].
    rewrite !minus_IZR, mult_IZR. lra.
  - exists r, r'. split; [exact E|]. split; [exact E'|]. split; [exact V5|].
    assert (X := f_equal (fun o => match o with Some (Ok r) => r | _ => r end) (eq_trans (eq_sym E2) E')). cbn beta iota in X. subst r2.
    exists p, p2. split; [exact Hp|]. split; [exact Hp2|]. exact (H p p2 Hp Hp2).
Qed.
