(** Lemmas: tables as lists of rows. *)
From Coq Require Import ZArith QArith Ascii String Bool Sorted Permutation Lia List.
From Verif Require Import M_Py L_Base M_Str L_Str M_Ini M_Cal M_ReadNav M_Table M_Bgm M_Dgs S_Table S_Bgm S_Dgs L_Table L_Bgm L_Dgs P_Dgs L_Dateline M_Script S_Script L_Script.
Import ListNotations.
Open Scope Z_scope.
Local Notation len := List.length.

Definition row (f : frame) (i : nat) : list cell := map (fun c => nth i (snd c) NaN) f.
Definition rows (f : frame) (n : nat) : list (list cell) := map (row f) (seq 0 n).

Lemma nth_row f i k : (k < len f)%nat -> nth k (row f i) NaN = nth i (snd (nth k f ([], []))) NaN.
Proof.
  intros H. unfold row. rewrite (nth_indep _ NaN ((fun c : str * list cell => nth i (snd c) NaN) ([], []))) by (rewrite map_length; exact H).
  rewrite (map_nth (fun c : str * list cell => nth i (snd c) NaN)). reflexivity.
Qed.
(** a table is given by its names and rows *)
Lemma take_rows_eq f g idx jdx : map fst f = map fst g -> map (row f) idx = map (row g) jdx -> take_rows idx f = take_rows jdx g.
Proof.
  intros N Hr. assert (L : len f = len g) by (rewrite <- (map_length fst f), N, map_length; reflexivity).
  apply (nth_ext _ _ ([], []) ([], [])); [unfold take_rows; rewrite !map_length; exact L|]. intros k Hk. unfold take_rows in *. rewrite map_length in Hk.
  set (F := fun (idx : list nat) (c : str * list cell) => (fst c, map (fun i => nth i (snd c) NaN) idx)).
  change (nth k (map (F idx) f) ([], []) = nth k (map (F jdx) g) ([], [])).
  rewrite (nth_indep _ _ (F idx ([], []))) by (rewrite map_length; exact Hk). rewrite map_nth.
  rewrite (nth_indep (map (F jdx) g) _ (F jdx ([], []))) by (rewrite map_length; lia). rewrite map_nth. unfold F. f_equal.
  - pose proof (f_equal (fun l => nth k l []) N) as E. cbn beta in E. rewrite (nth_indep _ _ (fst (([], []) : str * list cell))) in E by (rewrite map_length; exact Hk).
    rewrite (nth_indep (map fst g) _ (fst (([], []) : str * list cell))) in E by (rewrite map_length; lia). rewrite !map_nth in E. exact E.
  - apply (f_equal (map (fun r => nth k r NaN))) in Hr. rewrite !map_map in Hr.
    rewrite (map_ext (fun i => nth k (row f i) NaN) (fun i => nth i (snd (nth k f ([], []))) NaN)) in Hr by (intros i; apply nth_row; exact Hk).
    rewrite (map_ext (fun i => nth k (row g i) NaN) (fun i => nth i (snd (nth k g ([], []))) NaN)) in Hr by (intros i; apply nth_row; lia). exact Hr.
Qed.

(** ** Tables with the same columns, one under the other *)
Lemma has_app_names l c : has l c = true -> add_name l c = l.
Proof. intros H. unfold add_name. rewrite H. reflexivity. Qed.
Lemma add_known ns l : (forall c, In c l -> In c ns) -> fold_left add_name l ns = ns.
Proof.
  revert ns. induction l as [|c l IH]; intros ns H; [reflexivity|]. cbn [fold_left]. rewrite has_app_names by (apply has_spec; apply H; left; reflexivity).
  apply IH. intros x Hx. apply H. right. exact Hx.
Qed.
Lemma add_new acc l : NoDup (acc ++ l) -> fold_left add_name l acc = acc ++ l.
Proof.
  revert acc. induction l as [|c l IH]; intros acc N; [rewrite app_nil_r; reflexivity|]. cbn [fold_left]. unfold add_name at 2.
  replace (has acc c) with false. 2: { symmetry. apply has_false. intros I. apply NoDup_remove_2 in N. apply N. apply in_or_app. left. exact I. }
  rewrite IH; rewrite <- app_assoc; [reflexivity|exact N].
Qed.
Lemma all_names_same ns fs : fs <> [] -> NoDup ns -> Forall (fun f : frame => map fst f = ns) fs -> all_names fs = ns.
Proof.
  intros Hn N F. unfold all_names. destruct F as [|f fs Hf F]; [congruence|]. cbn [map concat]. rewrite fold_left_app, Hf, (add_new [] ns) by exact N. cbn [app].
  apply add_known. intros c Hc. apply in_concat in Hc. destruct Hc as [l [Hl Hc]]. apply in_map_iff in Hl. destruct Hl as [g [<- Hg]].
  rewrite Forall_forall in F. rewrite (F g Hg) in Hc. exact Hc.
Qed.
Definition col (f : frame) (c : str) : list cell := match column f c with Some v => v | None => repeat NaN (nrows f) end.
Lemma frame_cols ns f : NoDup ns -> map fst f = ns -> f = map (fun c => (c, col f c)) ns.
Proof.
  intros N <-. rewrite map_map. rewrite <- (map_id f) at 1. apply map_ext_in. intros [c v] I. cbn [fst]. f_equal.
  unfold col. rewrite (column_has f c v N I). reflexivity.
Qed.
Lemma col_length ns f n c : map fst f = ns -> table f n -> In c ns -> len (col f c) = n.
Proof.
  intros <- [N [_ L]] I. apply in_map_iff in I. destruct I as [[c' v] [E I]]. cbn [fst] in E. subst c'. unfold col. rewrite (column_has f c v N I).
  rewrite Forall_forall in L. exact (L _ I).
Qed.
Lemma row_cols ns f i : NoDup ns -> map fst f = ns -> row f i = map (fun c => nth i (col f c) NaN) ns.
Proof. intros N E. rewrite (frame_cols ns f N E) at 1. unfold row. rewrite map_map. reflexivity. Qed.
Lemma map_seq_shift (A : Type) (F : nat -> A) m k : map F (seq m k) = map (fun i => F (m + i)%nat) (seq 0 k).
Proof.
  induction k as [|k IH]; [reflexivity|]. rewrite !seq_S, !map_app, IH. reflexivity.
Qed.
Lemma concat_rows ns (fs : list (frame * nat)) T : fs <> [] -> NoDup ns -> ns <> [] ->
  Forall (fun fn => map fst (fst fn) = ns /\ table (fst fn) (snd fn)) fs -> concat_frames (map fst fs) = Ok T ->
  map fst T = ns /\ let n := fold_right Nat.add 0%nat (map snd fs) in table T n /\ rows T n = concat (map (fun fn => rows (fst fn) (snd fn)) fs).
Proof.
  intros Hne N Hns F E. assert (E2 : T = map (fun c => (c, concat (map (fun f => col f c) (map fst fs)))) ns).
  { unfold concat_frames in E. destruct (map fst fs) as [|f0 fs0] eqn:E0; [destruct fs; [congruence|discriminate]|]. rewrite <- E0 in *.
    rewrite (all_names_same ns) in E.
    - assert (T = map (fun c => (c, concat (map (fun f => match column f c with Some v => v | None => repeat NaN (nrows f) end) (map fst fs)))) ns) by congruence. exact H.
    - rewrite E0. discriminate.
    - exact N.
    - apply Forall_forall. intros f I. apply in_map_iff in I. destruct I as [fn [<- I]]. rewrite Forall_forall in F. apply (F fn I). }
  assert (Nm : map fst T = ns) by (rewrite E2, map_map; cbn [fst]; apply map_id). split; [exact Nm|]. cbv zeta.
  set (n := fold_right Nat.add 0%nat (map snd fs)).
  assert (Lc : forall c, In c ns -> len (concat (map (fun f => col f c) (map fst fs))) = n).
  { intros c Ic. unfold n. clear E E2 Nm Hne n. induction F as [|[f m] fs [F1 F2] F IH]; [reflexivity|]. cbn [map concat fold_right fst snd]. rewrite app_length, IH.
    rewrite (col_length ns f m c F1 F2 Ic). reflexivity. }
  assert (HT : table T n).
  { split; [rewrite Nm; exact N|]. split; [rewrite E2; destruct ns; [congruence|discriminate]|]. rewrite E2. apply Forall_forall. intros [c v] I.
    apply in_map_iff in I. destruct I as [c' [E3 I]]. injection E3 as -> <-. cbn [snd]. apply Lc. exact I. }
  split; [exact HT|].
  assert (Ec : forall c, In c ns -> col T c = concat (map (fun f => col f c) (map fst fs))).
  { intros c Ic. unfold col. rewrite (column_has T c (concat (map (fun f => col f c) (map fst fs)))); [reflexivity|rewrite Nm; exact N|].
    rewrite E2. apply in_map_iff. exists c. split; [reflexivity|exact Ic]. }
  unfold rows. rewrite (map_ext (row T) (fun i => map (fun c => nth i (concat (map (fun f => col f c) (map fst fs))) NaN) ns)).
  2: { intros i. rewrite (row_cols ns T i N Nm). apply map_ext_in. intros c Ic. rewrite (Ec c Ic). reflexivity. }
  clear E E2 Nm HT Ec Lc Hne. unfold n. clear n. induction F as [|[f m] fs [F1 F2] F IH]; [reflexivity|]. cbn [fst snd] in F1, F2. cbn [map fold_right concat fst snd].
  rewrite seq_app, map_app. f_equal.
  - apply map_ext_in. intros i Hi. apply in_seq in Hi. rewrite (row_cols ns f i N F1). apply map_ext_in. intros c Ic. apply app_nth1.
    rewrite (col_length ns f m c F1 F2 Ic). lia.
  - rewrite <- IH. cbn [Nat.add]. rewrite map_seq_shift. apply map_ext. intros i. apply map_ext_in. intros c Ic.
    rewrite app_nth2 by (rewrite (col_length ns f m c F1 F2 Ic); lia). rewrite (col_length ns f m c F1 F2 Ic). f_equal. lia.
Qed.

(** ** The laptop reader *)
Lemma laptop_names td ship text g : laptop_file td ship text g ->
  map fst g = (if str_eqb ship (lit "Thompson") then map fst thompson_fields else map fst laptop_fields) ++ [lit "date_time"].
Proof.
  intros [ship' text' rs f g' H1 H2 H3 H4 H5|text' rs f g' H2 H3 H4 H5|text' rs f stamps ts H2 H3 H4 H5 H6|text' lines rs skipped f g' H2 H3 H4 H5].
  - replace (str_eqb ship' (lit "Thompson")) with false.
    + destruct H5 as [ts [-> _]]. rewrite map_app, (frame_names _ _ _ H4). reflexivity.
    + unfold laptop_ships in H1. cbn [map In] in H1. repeat (destruct H1 as [<-|H1]; [reflexivity|]). destruct H1.
  - destruct H5 as [ts [-> _]]. rewrite map_app, (frame_names _ _ _ H4). reflexivity.
  - rewrite map_app, (frame_names _ _ _ H4). reflexivity.
  - destruct H5 as [ts [-> _]]. rewrite map_app, (langseth_names _ _ H4). reflexivity.
Qed.
Lemma collect_inv reader paths fs : collect reader paths = Ok (Some fs) -> Forall2 (fun p f => reader p = Ok (Some f)) paths fs.
Proof.
  revert fs. induction paths as [|p paths IH]; intros fs E; cbn [collect] in E; [injection E as <-; constructor|].
  destruct (reader p) as [[f|]|e] eqn:Ep; cbn [bind] in E; try discriminate. destruct (collect reader paths) as [[gs|]|e]; cbn [bind option_map] in E; try discriminate.
  injection E as <-. constructor; [exact Ep|apply IH; reflexivity].
Qed.
Lemma laptop_read fsys td ship p g : keeps_length td -> laptop_reader fsys td ship None p = Ok (Some g) ->
  map fst g = (if str_eqb ship (lit "Thompson") then map fst thompson_fields else map fst laptop_fields) ++ [lit "date_time"] /\ exists n, table g n.
Proof.
  intros K E. assert (Hs : In ship all_laptop_ships).
  { destruct (in_dec (list_eq_dec ascii_dec) ship all_laptop_ships) as [Hs|Hs]; [exact Hs|]. exfalso.
    assert (C : read_dgs_laptop fsys td [p] ship None = Ok None) by (apply C71_laptop_minus_999; split; [reflexivity|split; [discriminate|exact Hs]]).
    unfold read_dgs_laptop in C. cbn [collect] in C. rewrite E in C. discriminate. }
  destruct (fsys p) as [text|] eqn:Hp.
  - pose proof (laptop_cases fsys td ship p text Hs Hp) as L. rewrite E in L. split; [exact (laptop_names _ _ _ _ L)|exact (laptop_file_table _ _ _ _ K L)].
  - exfalso. unfold laptop_reader, open_text in E. rewrite Hp in E. cbn [bind] in E. unfold all_laptop_ships, laptop_ships in Hs. cbn [map app In] in Hs.
    repeat (destruct Hs as [<-|Hs]; [discriminate E|]). destruct Hs.
Qed.
Lemma Forall2_Permutation (A B : Type) (P : A -> B -> Prop) l l' m : Permutation l l' -> Forall2 P l m -> exists m', Permutation m m' /\ Forall2 P l' m'.
Proof.
  intros H. revert m. induction H as [|x l l' _ IH|x y l|l l' l'' _ IH1 _ IH2]; intros m F.
  - inversion F. exists []. split; constructor.
  - inversion F as [|? b ? m' Hb F']; subst. destruct (IH m' F') as [m2 [P2 F2]]. exists (b :: m2). split; [constructor; exact P2|constructor; assumption].
  - inversion F as [|? b ? m' Hb F']; subst. inversion F' as [|? c ? m2 Hc F2]; subst. exists (c :: b :: m2). split; [apply perm_swap|constructor; [exact Hc|constructor; assumption]].
  - destruct (IH1 m F) as [m1 [P1 F1]]. destruct (IH2 m1 F1) as [m2 [P2 F2]]. exists m2. split; [eapply perm_trans; eassumption|exact F2].
Qed.
Lemma laptop_permuted fsys td ship paths paths' T : keeps_length td -> Permutation paths paths' -> read_dgs_laptop fsys td paths ship None = Ok (Some T) ->
  exists T' n, read_dgs_laptop fsys td paths' ship None = Ok (Some T') /\ map fst T' = map fst T /\ table T n /\ table T' n /\ Permutation (rows T n) (rows T' n).
Proof.
  intros K P E. unfold read_dgs_laptop in E. destruct (collect (laptop_reader fsys td ship None) paths) as [[fs|]|e] eqn:Ec; cbn [bind gathered] in E; try discriminate.
  destruct (concat_frames fs) as [T0|e] eqn:ET; cbn [bind] in E; [|discriminate]. assert (T0 = T) by congruence. subst T0. clear E.
  apply collect_inv in Ec. destruct (Forall2_Permutation _ _ _ _ _ _ P Ec) as [fs' [Pf Ec']].
  set (ns := (if str_eqb ship (lit "Thompson") then map fst thompson_fields else map fst laptop_fields) ++ [lit "date_time"]).
  assert (N : NoDup ns) by (unfold ns; destruct (str_eqb ship (lit "Thompson")); apply nodupb_ok; reflexivity).
  assert (F : Forall (fun f => map fst f = ns /\ exists n, table f n) fs).
  { clear - Ec K ns. induction Ec as [|p f paths fs Hp _ IH]; constructor; [exact (laptop_read _ _ _ _ _ K Hp)|exact IH]. }
  assert (Hf : fs <> []) by (intros ->; discriminate).
  assert (X : exists fns : list (frame * nat), map fst fns = fs /\ Forall (fun fn => map fst (fst fn) = ns /\ table (fst fn) (snd fn)) fns).
  { clear - F. induction F as [|f fs [F1 [n F2]] _ [fns [I1 I2]]]; [exists []; split; [reflexivity|constructor]|]. exists ((f, n) :: fns). cbn [map fst]. rewrite I1. split; [reflexivity|].
    constructor; [split; assumption|exact I2]. }
  destruct X as [fns [E1 F1]].
  assert (Y : exists fns', map fst fns' = fs' /\ Permutation fns fns').
  { destruct (Permutation_map_inv (l1 := fs') fst fns) as [l3 [Q1 Q2]]; [rewrite E1; symmetry; exact Pf|]. exists l3. split; [symmetry; exact Q1|exact Q2]. }
  destruct Y as [fns' [E1' P']].
  assert (F1' : Forall (fun fn => map fst (fst fn) = ns /\ table (fst fn) (snd fn)) fns') by (eapply Permutation_Forall; eassumption).
  assert (Hf' : fs' <> []) by (intros ->; apply Permutation_sym, Permutation_nil in Pf; congruence).
  assert (ET' : exists T', concat_frames fs' = Ok T') by (destruct fs'; [congruence|eexists; reflexivity]). destruct ET' as [T' ET'].
  assert (Hfn : fns <> []) by (intros ->; cbn in E1; congruence). assert (Hfn' : fns' <> []) by (intros ->; cbn in E1'; congruence).
  assert (Hns : ns <> []) by (unfold ns; intros H; apply app_eq_nil in H; destruct H; discriminate).
  rewrite <- E1 in ET. rewrite <- E1' in ET'.
  destruct (concat_rows ns fns T Hfn N Hns F1 ET) as [N1 [T1 R1]]. destruct (concat_rows ns fns' T' Hfn' N Hns F1' ET') as [N1' [T1' R1']].
  set (n := fold_right Nat.add 0%nat (map snd fns)) in *.
  assert (En : fold_right Nat.add 0%nat (map snd fns') = n).
  { unfold n. clear - P'. induction P' as [|x l l' _ IH|x y l|l l' l'' _ IH1 _ IH2]; cbn [map fold_right]; lia. }
  rewrite En in *. exists T', n. split; [|split; [|split; [exact T1|split; [exact T1'|]]]].
  - unfold read_dgs_laptop. rewrite (collect_ok _ _ _ Ec'). cbn [bind gathered]. rewrite <- E1', ET'. reflexivity.
  - congruence.
  - rewrite R1, R1'. clear - P'. induction P' as [|x l l' _ IH|x y l|l l' l'' _ IH1 _ IH2]; cbn [map concat].
    + constructor.
    + apply Permutation_app_head. exact IH.
    + rewrite !app_assoc. apply Permutation_app_tail. apply Permutation_app_comm.
    + eapply perm_trans; eassumption.
Qed.

(** ** Sorting rows with different times *)
Lemma distinct_red ts : distinct_times ts <-> NoDup (map Qred ts).
Proof.
  assert (E : forall i, nth i (map Qred ts) (Qred 0) = Qred (nth i ts 0%Q)) by (intros i; apply map_nth). split.
  - intros D. apply (NoDup_nth _ (Qred 0)). rewrite map_length. intros i j Hi Hj H. rewrite !E in H. destruct (Nat.lt_trichotomy i j) as [L|[L|L]]; [|exact L|]; exfalso.
    + apply (D i j); [lia|]. rewrite <- (Qred_correct (nth i ts 0%Q)), H. apply Qred_correct.
    + apply (D j i); [lia|]. rewrite <- (Qred_correct (nth j ts 0%Q)), <- H. apply Qred_correct.
  - intros N i j [L1 L2] H. assert (i = j); [|lia]. apply (proj1 (NoDup_nth _ (Qred 0)) N); rewrite ?map_length; try lia. rewrite !E. apply Qred_complete. exact H.
Qed.
Definition key (k : nat) (r : list cell) : Q := match nth k r NaN with Time t => t | _ => 0%Q end.
Lemma position f c v : NoDup (map fst f) -> has_column f c v -> exists k, (k < len f)%nat /\ nth k f ([], []) = (c, v).
Proof.
  intros _ H. destruct (In_nth f (c, v) ([], []) H) as [k [Hk E]]. exists k. split; assumption.
Qed.
Lemma sorted_strict ts idx : distinct_times ts -> NoDup idx -> Forall (fun i => (i < len ts)%nat) idx ->
  StronglySorted (fun i j => nth i ts 0 <= nth j ts 0)%Q idx -> StronglySorted (fun i j => nth i ts 0 < nth j ts 0)%Q idx.
Proof.
  intros D N B S. induction S as [|i idx S IH F]; constructor.
  - apply IH; [inversion N; assumption|inversion B; assumption].
  - inversion N as [|? ? Ni N']; subst. inversion B as [|? ? Bi B']; subst. rewrite Forall_forall in *. intros j Hj. specialize (F j Hj). specialize (B' j Hj).
    destruct (Qle_lt_or_eq _ _ F) as [L|L]; [exact L|]. exfalso. assert (i <> j) by (intros ->; contradiction).
    destruct (Nat.lt_trichotomy i j) as [H1|[H1|H1]]; [apply (D i j); [lia|exact L]|contradiction|apply (D j i); [lia|symmetry; exact L]].
Qed.
Lemma sorted_map (A B : Type) (f : A -> B) (P : A -> A -> Prop) (Q : B -> B -> Prop) l : (forall a b, In a l -> In b l -> P a b -> Q (f a) (f b)) ->
  StronglySorted P l -> StronglySorted Q (map f l).
Proof.
  intros H S. induction S as [|a l S IH F]; [constructor|]. cbn [map]. constructor; [apply IH; intros x y Hx Hy; apply H; right; assumption|].
  apply Forall_forall. intros b Hb. apply in_map_iff in Hb. destruct Hb as [x [<- Hx]]. rewrite Forall_forall in F. apply H; [left; reflexivity|right; exact Hx|apply F; exact Hx].
Qed.
Lemma nth_time ts i : (i < len ts)%nat -> nth i (map Time ts) NaN = Time (nth i ts 0%Q).
Proof. intros H. rewrite (nth_indep _ NaN (Time 0%Q)) by (rewrite map_length; exact H). apply map_nth. Qed.
Lemma key_rows T n c k ts : table T n -> (k < len T)%nat -> nth k T ([], []) = (c, map Time ts) -> map (fun r => nth k r NaN) (rows T n) = map Time ts /\ len ts = n.
Proof.
  intros [_ [_ L]] Hk E. rewrite Forall_forall in L. assert (Ln : len ts = n).
  { specialize (L (nth k T ([], [])) (nth_In _ _ Hk)). rewrite E in L. cbn [snd] in L. rewrite map_length in L. exact L. }
  split; [|exact Ln]. unfold rows. rewrite map_map. apply (nth_ext _ _ NaN NaN); [rewrite !map_length, seq_length; lia|]. intros i Hi. rewrite map_length, seq_length in Hi.
  rewrite (nth_indep _ NaN (nth k (row T 0) NaN)) by (rewrite map_length, seq_length; exact Hi). rewrite (map_nth (fun x => nth k (row T x) NaN)).
  rewrite seq_nth by exact Hi. cbn [Nat.add]. rewrite nth_row by exact Hk. rewrite E. reflexivity.
Qed.
Lemma sorted_rows argsort T n c k ts : sorts argsort -> table T n -> (k < len T)%nat -> nth k T ([], []) = (c, map Time ts) -> distinct_times ts ->
  StronglySorted (fun r s => key k r < key k s)%Q (map (row T) (argsort ts)) /\ Permutation (map (row T) (argsort ts)) (rows T n).
Proof.
  intros S HT Hk E D. destruct (S ts) as [S1 S2]. destruct (key_rows _ _ _ _ _ HT Hk E) as [_ Ln]. split.
  - apply (sorted_map _ _ _ (fun i j => nth i ts 0 < nth j ts 0)%Q).
    + intros i j Hi Hj H. pose proof (permutation_below _ _ S1) as B. rewrite Forall_forall in B.
      unfold key. rewrite !nth_row by exact Hk. rewrite E. cbn [snd]. rewrite !nth_time by (apply B; assumption). exact H.
    + apply sorted_strict; [exact D| |exact (permutation_below _ _ S1)|exact S2]. apply (Permutation_NoDup (Permutation_sym S1)). apply seq_NoDup.
  - unfold rows. apply Permutation_map. rewrite <- Ln. exact S1.
Qed.
Lemma sort_values_same argsort argsort' T T' n ts : sorts argsort -> sorts argsort' -> table T n -> table T' n -> map fst T' = map fst T ->
  Permutation (rows T n) (rows T' n) -> has_column T (lit "date_time") (map Time ts) -> distinct_times ts ->
  sort_values argsort T (lit "date_time") = sort_values argsort' T' (lit "date_time").
Proof.
  intros S S' HT HT' Nm P Hc D. destruct (position _ _ _ (proj1 HT) Hc) as [k [Hk Ek]].
  assert (L : len T' = len T) by (rewrite <- (map_length fst T'), Nm, map_length; reflexivity).
  assert (Hk' : (k < len T')%nat) by lia.
  destruct (nth k T' ([], [])) as [c' v'] eqn:Ek'.
  assert (c' = lit "date_time").
  { pose proof (f_equal (fun l => nth k l []) Nm) as E. cbn beta in E. rewrite (nth_indep _ _ (fst (([], []) : str * list cell))) in E by (rewrite map_length; exact Hk').
    rewrite (nth_indep (map fst T) _ (fst (([], []) : str * list cell))) in E by (rewrite map_length; exact Hk). rewrite !map_nth, Ek, Ek' in E. exact E. }
  subst c'. destruct (key_rows _ _ _ _ _ HT Hk Ek) as [K Ln].
  assert (K' : map (fun r => nth k r NaN) (rows T' n) = v').
  { unfold rows. rewrite map_map. destruct HT' as [_ [_ L']]. rewrite Forall_forall in L'. assert (I : In (lit "date_time", v') T') by (rewrite <- Ek'; apply nth_In; exact Hk'). specialize (L' _ I). cbn [snd] in L'.
    apply (nth_ext _ _ NaN NaN); [rewrite map_length, seq_length; lia|]. intros i Hi. rewrite map_length, seq_length in Hi.
    rewrite (nth_indep _ NaN (nth k (row T' 0) NaN)) by (rewrite map_length, seq_length; exact Hi). rewrite (map_nth (fun x => nth k (row T' x) NaN)).
    rewrite seq_nth by exact Hi. cbn [Nat.add]. rewrite nth_row by exact Hk'. rewrite Ek'. reflexivity. }
  assert (X : exists ts', v' = map Time ts' /\ Permutation ts ts').
  { pose proof (Permutation_map (fun r => nth k r NaN) P) as Q. rewrite K, K' in Q. symmetry in Q. destruct (Permutation_map_inv Time _ Q) as [ts' [E Q']]. exists ts'. split; assumption. }
  destruct X as [ts' [-> Pt]].
  assert (D' : distinct_times ts') by (apply distinct_red; apply (Permutation_NoDup (Permutation_map Qred Pt)); apply distinct_red; exact D).
  assert (Hc' : has_column T' (lit "date_time") (map Time ts')) by (unfold has_column; rewrite <- Ek'; apply nth_In; exact Hk').
  unfold sort_values. rewrite (get_column_ok _ _ _ (proj1 HT) Hc), (get_column_ok _ _ _ (proj1 HT') Hc'). cbn [bind]. rewrite !sort_order_times by assumption.
  f_equal. apply take_rows_eq; [symmetry; exact Nm|].
  destruct (sorted_rows argsort T n _ k ts S HT Hk Ek D) as [A1 A2]. destruct (sorted_rows argsort' T' n _ k ts' S' HT' Hk' Ek' D') as [B1 B2].
  apply (sorted_unique _ (fun r s => key k r < key k s)%Q).
  - intros r H. exact (Qlt_irrefl _ H).
  - intros r s H1 H2. exact (Qlt_irrefl _ (Qlt_trans _ _ _ H1 H2)).
  - exact A1.
  - exact B1.
  - intros r. split; intros I.
    + apply (Permutation_in _ (Permutation_sym B2)). apply (Permutation_in _ P). apply (Permutation_in _ A2). exact I.
    + apply (Permutation_in _ (Permutation_sym A2)). apply (Permutation_in _ (Permutation_sym P)). apply (Permutation_in _ B2). exact I.
Qed.
