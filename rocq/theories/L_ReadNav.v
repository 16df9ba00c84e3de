(** Lemmas for properties C60-C65. *)
From Coq Require Import ZArith Reals Ascii String Bool Lia Lra List Sorted.
From Verif Require Import M_Py L_Base M_Str S_Str L_Str M_Ini M_Nmea M_ReadNav S_Nmea S_ReadNav L_Nmea L_Nav2 L_Revelle.
Import ListNotations.
Open Scope Z_scope.
Local Notation len := List.length.

(** ** np.unique *)
Definition below (v : Z) (l : list (Z * nat)) : Prop := Forall (fun e => v < fst e) l.
Fixpoint asc (l : list (Z * nat)) : Prop := match l with [] => True | e :: t => below (fst e) t /\ asc t end.

Lemma below_trans v w l : v <= w -> below w l -> below v l.
Proof. intros H. apply Forall_impl. intros e He. lia. Qed.

Lemma ins_unique_in v i l : asc l -> forall w j, In (w, j) (ins_unique v i l) <->
  In (w, j) l \/ (w = v /\ j = i /\ forall k, ~ In (v, k) l).
Proof.
  induction l as [|[w0 j0] l IH]; intros Ha w j; cbn [ins_unique].
  - cbn [In]. split; [intros [E|[]]; injection E as <- <-; right; tauto|intros [[]|[-> [-> _]]]; left; reflexivity].
  - destruct Ha as [Hb Ha]. cbn [fst] in Hb. unfold below in Hb. rewrite Forall_forall in Hb.
    destruct (Z.ltb_spec v w0) as [H|H].
    + cbn [In]. split; [intros [E|E]; [injection E as <- <-; right|left; exact E]|intros [E|[-> [-> _]]]; [right; exact E|left; reflexivity]].
      split; [reflexivity|]. split; [reflexivity|]. intros k [E|E]; [injection E as -> _; lia|]. specialize (Hb _ E). cbn [fst] in Hb. lia.
    + destruct (Z.eqb_spec v w0) as [->|Hne].
      * split; [intros E; left; exact E|intros [E|[_ [_ Hk]]]; [exact E|]]. exfalso. apply (Hk j0). left. reflexivity.
      * cbn [In]. rewrite IH by exact Ha. split.
        -- intros [E|[E|[-> [-> Hk]]]]; [left; left; exact E|left; right; exact E|right].
           split; [reflexivity|]. split; [reflexivity|]. intros k [E|E]; [injection E as -> _; congruence|exact (Hk k E)].
        -- intros [[E|E]|[-> [-> Hk]]]; [left; exact E|right; left; exact E|right; right].
           split; [reflexivity|]. split; [reflexivity|]. intros k E. apply (Hk k). right. exact E.
Qed.

Lemma ins_unique_asc v i l : asc l -> asc (ins_unique v i l).
Proof.
  induction l as [|[w j] l IH]; intros H; cbn [ins_unique]; [split; [constructor|exact I]|].
  destruct H as [Hb Ha]. cbn [fst] in Hb. destruct (Z.ltb_spec v w) as [Hlt|Hge].
  - split; [|split; [exact Hb|exact Ha]]. constructor; [exact Hlt|]. apply (below_trans v w); [cbn; lia|exact Hb].
  - destruct (Z.eqb_spec v w) as [->|Hne]; [split; [exact Hb|exact Ha]|]. split; [|apply IH; exact Ha].
    cbn [fst]. unfold below in *. apply Forall_forall. intros [x k] Hx. apply (ins_unique_in v i l Ha) in Hx. cbn [fst].
    destruct Hx as [Hx|[-> _]]; [|lia]. rewrite Forall_forall in Hb. exact (Hb _ Hx).
Qed.

Lemma first_index_fun l t i j : first_index l t i -> first_index l t j -> i = j.
Proof.
  intros [H1 H2] [H3 H4]. destruct (lt_eq_lt_dec i j) as [[H|H]|H]; [|exact H|].
  - exfalso. exact (H4 i H H1).
  - exfalso. exact (H2 j H H3).
Qed.

Lemma first_index_exists l t : In t l -> exists i, first_index l t i.
Proof.
  induction l as [|a l IH]; intros H; [destruct H|]. destruct (Z.eq_dec a t) as [->|Hne].
  - exists 0%nat. split; [reflexivity|]. intros j Hj. lia.
  - destruct H as [H|H]; [contradiction|]. destruct (IH H) as [i [H1 H2]]. exists (S i). split; [exact H1|].
    intros [|j] Hj; cbn [nth_error]; [congruence|]. apply H2. lia.
Qed.

Lemma first_index_In l t i : first_index l t i -> In t l.
Proof. intros [H _]. apply nth_error_In in H. exact H. Qed.

Lemma first_index_lt l t i : first_index l t i -> (i < len l)%nat.
Proof. intros [H _]. apply nth_error_Some. rewrite H. discriminate. Qed.

Lemma first_index_snoc l a t i : first_index (l ++ [a]) t i <-> first_index l t i \/ (~ In t l /\ t = a /\ i = len l).
Proof.
  split.
  - intros [H1 H2]. destruct (lt_dec i (len l)) as [Hi|Hi].
    + left. split; [rewrite nth_error_app1 in H1 by exact Hi; exact H1|].
      intros j Hj E. apply (H2 j Hj). rewrite nth_error_app1 by lia. exact E.
    + right. assert (Hl : (i < len (l ++ [a]))%nat) by (apply nth_error_Some; rewrite H1; discriminate).
      rewrite app_length in Hl. cbn [List.length] in Hl. assert (i = len l) by lia. subst i.
      rewrite nth_error_app2, Nat.sub_diag in H1 by lia. cbn in H1. injection H1 as ->.
      split; [|split; reflexivity]. intros Hin. apply In_nth_error in Hin. destruct Hin as [j E].
      assert (Hj : (j < len l)%nat) by (apply nth_error_Some; rewrite E; discriminate).
      apply (H2 j Hj). rewrite nth_error_app1 by exact Hj. exact E.
  - intros [H|[Hn [-> ->]]].
    + pose proof (first_index_lt _ _ _ H) as Hl. destruct H as [H1 H2]. split; [rewrite nth_error_app1 by exact Hl; exact H1|].
      intros j Hj. rewrite nth_error_app1 by lia. apply H2. exact Hj.
    + split; [rewrite nth_error_app2, Nat.sub_diag by lia; reflexivity|]. intros j Hj E. rewrite nth_error_app1 in E by exact Hj.
      apply Hn. apply nth_error_In in E. exact E.
Qed.

Lemma combine_snoc (A B : Type) (l : list A) a (k : list B) b : len l = len k -> combine (l ++ [a]) (k ++ [b]) = combine l k ++ [(a, b)].
Proof. revert k. induction l as [|x l IH]; intros [|y k] H; try discriminate; [reflexivity|]. cbn [app combine]. rewrite IH by (injection H as H; exact H). reflexivity. Qed.

Lemma unique_index_spec t : asc (unique_index t) /\ forall v i, In (v, i) (unique_index t) <-> first_index t v i.
Proof.
  unfold unique_index. induction t as [|a t [IH1 IH2]] using rev_ind.
  - split; [exact I|]. intros v i. cbn. split; [intros []|intros [H _]; destruct i; discriminate].
  - rewrite app_length, seq_app. cbn [List.length seq]. rewrite combine_snoc by (rewrite seq_length; reflexivity).
    rewrite fold_left_app. cbn [fold_left fst snd Nat.add]. split; [apply ins_unique_asc; exact IH1|].
    intros v i. rewrite (ins_unique_in _ _ _ IH1), IH2, first_index_snoc. split.
    + intros [H|[-> [-> Hk]]]; [left; exact H|right]. split; [|split; reflexivity].
      intros Hin. destruct (first_index_exists _ _ Hin) as [k Hk']. apply (Hk k). apply IH2. exact Hk'.
    + intros [H|[Hn [-> ->]]]; [left; exact H|right]. split; [reflexivity|]. split; [reflexivity|].
      intros k Hk. apply Hn. apply IH2 in Hk. exact (first_index_In _ _ _ Hk).
Qed.

Lemma asc_sorted l : asc l -> StronglySorted Z.lt (map fst l).
Proof.
  induction l as [|e l IH]; intros H; [constructor|]. destruct H as [Hb Ha]. cbn [map]. constructor; [apply IH; exact Ha|].
  unfold below in Hb. rewrite Forall_map. exact Hb.
Qed.

Lemma unique_times t v : In v (map fst (unique_index t)) <-> In v t.
Proof.
  destruct (unique_index_spec t) as [_ H]. rewrite in_map_iff. split.
  - intros [[w i] [E Hin]]. cbn in E. subst w. apply H in Hin. exact (first_index_In _ _ _ Hin).
  - intros Hin. destruct (first_index_exists _ _ Hin) as [i Hi]. exists (v, i). split; [reflexivity|]. apply H. exact Hi.
Qed.

(** ** np.interp at nodes *)
Fixpoint ascn (l : list (Z * option R)) : Prop := match l with [] => True | e :: t => Forall (fun x => fst e < fst x) t /\ ascn t end.
Lemma interp_node x y nodes : ascn nodes -> In (x, y) nodes -> interp x nodes = y.
Proof.
  induction nodes as [|[x0 y0] rest IH]; intros Ha Hin; [destruct Hin|]. destruct Ha as [Hb Ha]. cbn [fst] in Hb. rewrite Forall_forall in Hb.
  destruct rest as [|[x1 y1] rest].
  - cbn [interp]. destruct Hin as [E|[]]. injection E as _ <-. reflexivity.
  - assert (Hd : interp x ((x0, y0) :: (x1, y1) :: rest) = (if x <=? x0 then y0 else if x <? x1 then
       match y0, y1 with Some a, Some b => Some ((b - a) / IZR (x1 - x0) * IZR (x - x0) + a)%R | _, _ => None end else interp x ((x1, y1) :: rest))) by reflexivity.
    rewrite Hd. clear Hd. destruct Hin as [E|Hin].
    + injection E as <- <-. destruct (Z.leb_spec x0 x0); [reflexivity|lia].
    + pose proof (Hb _ Hin) as H0. cbn [fst] in H0. destruct (Z.leb_spec x x0); [lia|].
      assert (H1 : x1 <= x).
      { destruct Hin as [E|Hin]; [injection E as -> _; lia|]. destruct Ha as [Hb1 _]. rewrite Forall_forall in Hb1. specialize (Hb1 _ Hin). cbn [fst] in Hb1. lia. }
      destruct (Z.ltb_spec x x1); [lia|]. apply IH; assumption.
Qed.

(** index of the first occurrence *)
Fixpoint index_of (t : Z) (l : list Z) : nat := match l with [] => 0 | a :: r => if a =? t then 0 else S (index_of t r) end.
Lemma index_of_first t l : In t l -> first_index l t (index_of t l).
Proof.
  induction l as [|a l IH]; intros H; [destruct H|]. cbn [index_of]. destruct (Z.eqb_spec a t) as [->|Hne].
  - split; [reflexivity|]. intros j Hj. lia.
  - destruct H as [H|H]; [contradiction|]. destruct (IH H) as [H1 H2]. split; [exact H1|].
    intros [|j] Hj; cbn [nth_error]; [congruence|]. apply H2. lia.
Qed.

(** ** Decimation *)
Lemma every_nth (A : Type) d (l : list A) : (0 < d)%nat -> forall k j, nth_error (every d k l) j = nth_error l (k + j * d).
Proof.
  intros Hd. induction l as [|a l IH]; intros k j; cbn [every].
  - destruct j; destruct (k + _)%nat; reflexivity.
  - destruct k as [|k].
    + destruct j as [|j]; [reflexivity|]. cbn [nth_error]. rewrite IH.
      replace (0 + S j * d)%nat with (S (d - 1 + j * d)) by (cbn [Nat.mul]; lia). reflexivity.
    + rewrite IH. reflexivity.
Qed.

Lemma decimated_taken (A : Type) d (l : list A) : taken d l (decimated d l).
Proof.
  unfold taken, decimated. split; [intros ->; reflexivity|]. split.
  - intros Hd j. destruct (Z.eqb_spec d 0); [lia|]. destruct (Z.ltb_spec 0 d); [|lia]. rewrite every_nth by lia. reflexivity.
  - intros Hd j. destruct (Z.eqb_spec d 0); [lia|]. destruct (Z.ltb_spec 0 d); [lia|]. rewrite every_nth by lia. reflexivity.
Qed.

Lemma nth_error_ext (A : Type) (l l' : list A) : (forall j, nth_error l j = nth_error l' j) -> l = l'.
Proof.
  revert l'. induction l as [|a l IH]; intros [|b l'] H; [reflexivity| | |].
  - specialize (H 0%nat). discriminate.
  - specialize (H 0%nat). discriminate.
  - pose proof (H 0%nat) as H0. cbn in H0. injection H0 as <-. f_equal. apply IH. intros j. exact (H (S j)).
Qed.

Lemma taken_fun (A : Type) d (l l1 l2 : list A) : taken d l l1 -> taken d l l2 -> l1 = l2.
Proof.
  intros [A1 [A2 A3]] [B1 [B2 B3]]. destruct (Z_lt_le_dec d 0) as [H|H]; [|destruct (Z.eq_dec d 0) as [H0|H0]].
  - apply nth_error_ext. intros j. rewrite A3, B3 by exact H. reflexivity.
  - rewrite A1, B1 by exact H0. reflexivity.
  - apply nth_error_ext. intros j. rewrite A2, B2 by lia. reflexivity.
Qed.

Lemma keeps_in d f t : keeps d f t <-> In t (decimated d (times f)).
Proof.
  split.
  - intros [l [H1 H2]]. rewrite (taken_fun _ _ _ _ _ (decimated_taken _ d (times f)) H1). exact H2.
  - intros H. exists (decimated d (times f)). split; [apply decimated_taken|exact H].
Qed.

Lemma every_map (A B : Type) (g : A -> B) d l : forall k, every d k (map g l) = map g (every d k l).
Proof. induction l as [|a l IH]; intros k; [reflexivity|]. cbn [map every]. destruct k; cbn [map]; rewrite IH; reflexivity. Qed.
Lemma decimated_map (A B : Type) (g : A -> B) d l : decimated d (map g l) = map g (decimated d l).
Proof. unfold decimated. destruct (d =? 0); [reflexivity|]. destruct (0 <? d); [apply every_map|]. rewrite <- map_rev. apply every_map. Qed.
Lemma every_In (A : Type) d (l : list A) a : forall k, In a (every d k l) -> In a l.
Proof. induction l as [|x l IH]; intros k H; [destruct H|]. cbn [every] in H. destruct k; [destruct H as [->|H]; [left; reflexivity|]|]; right; eapply IH; exact H. Qed.
Lemma decimated_In (A : Type) d (l : list A) a : In a (decimated d l) -> In a l.
Proof. unfold decimated. destruct (d =? 0); [tauto|]. destruct (0 <? d); intros H; apply every_In in H; [exact H|]. apply in_rev. exact H. Qed.

(** ** One file *)
Definition at_first (f : file_data) (vals : list (option R)) (t : Z) : option R := nth (index_of t (times f)) vals None.

Lemma mapM_stamp l : mapM stamp (map Some l) = Ok l.
Proof. rewrite (mapM_Forall2 _ _ stamp (map Some l) l); [reflexivity|]. induction l; constructor; [reflexivity|exact IHl]. Qed.

Lemma mapM_getr (A : Type) (l : list A) d idx : Forall (fun i => (i < len l)%nat) idx -> mapM (fun i => getr l i) idx = Ok (map (fun i => nth i l d) idx).
Proof.
  intros H. apply mapM_Ok_map. intros i Hi. rewrite Forall_forall in H. specialize (H i Hi).
  unfold getr. rewrite (nth_error_nth' l d H). reflexivity.
Qed.

Lemma combine_map2 (A B C : Type) (g : A -> B) (h : A -> C) l : combine (map g l) (map h l) = map (fun a => (g a, h a)) l.
Proof. induction l as [|a l IH]; [reflexivity|]. cbn [map combine]. rewrite IH. reflexivity. Qed.

Lemma unique_lt t : Forall (fun i => (i < len t)%nat) (map snd (unique_index t)).
Proof.
  apply Forall_forall. intros i Hi. apply in_map_iff in Hi. destruct Hi as [[v j] [E Hin]]. cbn in E. subst j.
  apply (proj2 (unique_index_spec t)) in Hin. exact (first_index_lt _ _ _ Hin).
Qed.

Lemma interp_first f vals t : len vals = len (times f) -> In t (times f) ->
  interp t (combine (map (fun i => nth i (times f) 0) (map snd (unique_index (times f)))) (map (fun i => nth i vals None) (map snd (unique_index (times f))))) = at_first f vals t.
Proof.
  intros Hl Hin. destruct (unique_index_spec (times f)) as [Ha Hi].
  rewrite !map_map, combine_map2.
  assert (E : forall e, In e (unique_index (times f)) -> nth (snd e) (times f) 0 = fst e).
  { intros [v i] He. apply Hi in He. destruct He as [He _]. cbn [fst snd]. apply nth_error_nth. exact He. }
  rewrite (map_ext_in _ (fun e => (fst e, nth (snd e) vals None))) by (intros e He; rewrite (E e He); reflexivity).
  apply interp_node.
  - clear - Ha. induction (unique_index (times f)) as [|e l IH]; [exact I|]. destruct Ha as [Hb Ha]. cbn [map]. split; [|apply IH; exact Ha].
    rewrite Forall_map. exact Hb.
  - apply in_map_iff. exists (t, index_of t (times f)). split; [reflexivity|]. apply Hi. apply index_of_first. exact Hin.
Qed.

Lemma file_rows_val sampling d f : sampling <> 0%R -> well_formed f ->
  file_rows sampling d (lons f) (lats f) (map Some (times f)) =
  Ok (decimated d (times f), map (at_first f (lons f)) (decimated d (times f)), map (at_first f (lats f)) (decimated d (times f))).
Proof.
  intros Hs [Hn [H1 H2]]. unfold file_rows. rewrite mapM_stamp. cbn [bind]. cbv zeta.
  destruct (times f) as [|t0 ts] eqn:Et; [congruence|]. rewrite <- Et in *. clear Hn.
  destruct (Req_EM_T sampling 0) as [H|_]; [contradiction|].
  pose proof (unique_lt (times f)) as Hlt.
  rewrite (mapM_getr _ (times f) 0) by exact Hlt.
  rewrite (mapM_getr _ (lons f) None) by (rewrite H1; exact Hlt).
  rewrite (mapM_getr _ (lats f) None) by (rewrite H2; exact Hlt). cbn [bind].
  assert (G : forall vals, len vals = len (times f) -> map (fun t => interp t (combine (map (fun i => nth i (times f) 0) (map snd (unique_index (times f)))) (map (fun i => nth i vals None) (map snd (unique_index (times f)))))) (times f) = map (at_first f vals) (times f)).
  { intros vals Hv. apply map_ext_in. intros t Ht. apply interp_first; assumption. }
  rewrite (G (lons f) H1), (G (lats f) H2).
  rewrite !decimated_map. reflexivity.
Qed.

(** ** All files *)
Lemma read_files_val fsys reader talker sampling d paths files : sampling <> 0%R ->
  Forall2 (fun p f => well_formed f /\ exists text, fsys p = Some text /\ reader (readlines text) talker = Ok (Some (lons f, lats f, Stamps (map Some (times f))))) paths files ->
  read_files fsys reader talker sampling d paths =
  Ok (Some (concat (map (fun f => decimated d (times f)) files),
            concat (map (fun f => map (at_first f (lons f)) (decimated d (times f))) files),
            concat (map (fun f => map (at_first f (lats f)) (decimated d (times f))) files))).
Proof.
  intros Hs H. induction H as [|p f paths files [Hw [text [Hf Hr]]] _ IH]; [reflexivity|].
  cbn [read_files]. rewrite Hf, Hr. cbn [bind]. rewrite file_rows_val by assumption. cbn [bind]. rewrite IH. reflexivity.
Qed.

(** ** The table *)
Lemma first_index_app a b t i : first_index (a ++ b) t i ->
  (In t a /\ first_index a t i) \/ (~ In t a /\ exists j, i = (len a + j)%nat /\ first_index b t j).
Proof.
  intros [H1 H2]. destruct (lt_dec i (len a)) as [Hi|Hi].
  - left. rewrite nth_error_app1 in H1 by exact Hi. split; [apply nth_error_In in H1; exact H1|]. split; [exact H1|].
    intros j Hj E. apply (H2 j Hj). rewrite nth_error_app1 by lia. exact E.
  - right. split.
    + intros Hin. apply In_nth_error in Hin. destruct Hin as [j E]. assert (Hj : (j < len a)%nat) by (apply nth_error_Some; rewrite E; discriminate).
      apply (H2 j ltac:(lia)). rewrite nth_error_app1 by exact Hj. exact E.
    + exists (i - len a)%nat. split; [lia|]. rewrite nth_error_app2 in H1 by lia. split; [exact H1|].
      intros j Hj E. apply (H2 (len a + j)%nat ltac:(lia)). rewrite nth_error_app2 by lia. replace (len a + j - len a)%nat with j by lia. exact E.
Qed.

Lemma concat_first d files t i : Forall well_formed files ->
  first_index (concat (map (fun f => decimated d (times f)) files)) t i ->
  first_seen d files t (nth i (concat (map (fun f => map (at_first f (lons f)) (decimated d (times f))) files)) None)
                       (nth i (concat (map (fun f => map (at_first f (lats f)) (decimated d (times f))) files)) None).
Proof.
  intros Hw. revert i. induction Hw as [|f files [Hn [L1 L2]] _ IH]; intros i H.
  - destruct H as [H _]. destruct i; discriminate.
  - cbn [map concat] in *. apply first_index_app in H. destruct H as [[Hin H]|[Hn' [j [-> H]]]].
    + pose proof (first_index_lt _ _ _ H) as Hl.
      rewrite !app_nth1 by (rewrite map_length; exact Hl). rewrite !(nth_map _ _ _ _ _ _ 0) by exact Hl.
      destruct H as [H _]. rewrite (nth_error_nth _ _ 0 H).
      pose proof (decimated_In _ _ _ _ Hin) as Hin'.
      pose proof (index_of_first t (times f) Hin') as Hf. pose proof (first_index_lt _ _ _ Hf) as Hlf.
      apply (seen_intro _ _ _ _ _ [] f files (index_of t (times f))); [reflexivity|constructor|apply keeps_in; exact Hin|exact Hf| |];
        unfold at_first; apply nth_error_nth'; lia.
    + rewrite !app_nth2 by (rewrite map_length; lia). rewrite !map_length. replace (len (decimated d (times f)) + j - len (decimated d (times f)))%nat with j by lia.
      destruct (IH j H) as [before g after k E Hb Hk Hf E1 E2].
      apply (seen_intro _ _ _ _ _ (f :: before) g after k); try assumption; [rewrite E; reflexivity|].
      constructor; [|exact Hb]. intros K. apply Hn'. apply keeps_in. exact K.
Qed.

Lemma map3_fields (l1 : list Z) (l2 l3 : list (option R)) : len l1 = len l2 -> len l1 = len l3 ->
  map time (map3 mk_fix l1 l2 l3) = l1 /\ map fix_lon (map3 mk_fix l1 l2 l3) = l2 /\ map fix_lat (map3 mk_fix l1 l2 l3) = l3.
Proof.
  revert l2 l3. induction l1 as [|a l1 IH]; intros [|b l2] [|c l3] H1 H2; try discriminate; [repeat split|].
  cbn [map3 map time fix_lon fix_lat]. cbn [List.length] in H1, H2. destruct (IH l2 l3) as [E1 [E2 E3]]; [lia|lia|]. rewrite E1, E2, E3. repeat split.
Qed.

(** ** Jumps *)
Lemma gt_b_spec a b : gt_b a b = true <-> exists x y, a = Some x /\ b = Some y /\ (y < x)%R.
Proof.
  unfold gt_b. destruct a as [x|], b as [y|]; try (split; [discriminate|intros [u [v [E1 [E2 _]]]]; discriminate]).
  destruct (Rlt_dec y x) as [H|H]; split; try discriminate; [|tauto|].
  - intros _. exists x, y. tauto.
  - intros [u [v [E1 [E2 H']]]]. injection E1 as ->. injection E2 as ->. contradiction.
Qed.

Lemma jumps_in l i : In i (jumps l) <-> exists a b, nth_error l i = Some (Some a) /\ nth_error l (S i) = Some (Some b) /\ (1 < Rabs (b - a))%R.
Proof.
  unfold jumps. rewrite filter_In, in_seq, gt_b_spec. rewrite Nat.add_1_r. split.
  - intros [Hi [x [y [E1 [E2 H]]]]]. injection E2 as <-.
    destruct (nth i l None) as [a|] eqn:Ea; [|discriminate]. destruct (nth (S i) l None) as [b|] eqn:Eb; [|discriminate].
    cbn [omap2] in E1. injection E1 as <-. exists a, b.
    rewrite (nth_error_nth' l None) by lia. rewrite (nth_error_nth' l None) by lia. rewrite Ea, Eb. tauto.
  - intros [a [b [E1 [E2 H]]]]. split.
    + assert (S i < len l)%nat by (apply nth_error_Some; rewrite E2; discriminate). lia.
    + rewrite (nth_error_nth _ _ None E1), (nth_error_nth _ _ None E2). cbn [omap2]. do 2 eexists. split; [reflexivity|]. split; [reflexivity|exact H].
Qed.

Lemma jumps_smooth l : jumps l = [] <-> smooth l.
Proof.
  split.
  - intros H i a b Ea Eb. apply Rnot_lt_le. intros Hlt. assert (Hin : In i (jumps l)) by (apply jumps_in; exists a, b; tauto).
    rewrite H in Hin. destruct Hin.
  - intros H. destruct (jumps l) as [|i r] eqn:E; [reflexivity|]. exfalso. assert (Hin : In i (jumps l)) by (rewrite E; left; reflexivity).
    apply jumps_in in Hin. destruct Hin as [a [b [Ea [Eb Hlt]]]]. specialize (H i a b Ea Eb). lra.
Qed.

Lemma shift180_length l : len (shift180 l) = len l.
Proof. unfold shift180. destruct (_ <? _)%nat; apply map_length. Qed.
Lemma upd_length (A : Type) (l : list A) n v : len (upd l n v) = len l.
Proof. revert n. induction l as [|a l IH]; intros [|n]; cbn [upd List.length]; try reflexivity. rewrite IH. reflexivity. Qed.
Lemma bridge_length is : forall l, len (fold_left bridge is l) = len l.
Proof. induction is as [|i is IH]; intros l; [reflexivity|]. cbn [fold_left]. rewrite IH. apply upd_length. Qed.
Lemma clean_length l : len (clean_180cross l) = len l.
Proof. unfold clean_180cross. destruct (Nat.even _); [rewrite bridge_length|]; apply shift180_length. Qed.

(** ** The result *)
Definition cleaned (l l' : list (option R)) : Prop := (smooth l -> l' = l) /\ (~ smooth l -> l' = clean_180cross l).

Lemma make_table_val d files : Forall well_formed files -> exists pre,
  let rows := make_table (concat (map (fun f => decimated d (times f)) files))
    (concat (map (fun f => map (at_first f (lons f)) (decimated d (times f))) files))
    (concat (map (fun f => map (at_first f (lats f)) (decimated d (times f))) files)) in
  StronglySorted Z.lt (map time rows) /\
  (forall t, In t (map time rows) <-> Exists (fun f => keeps d f t) files) /\
  cleaned pre (map fix_lon rows) /\
  len pre = len rows /\
  (forall k r, nth_error rows k = Some r -> exists lon, nth_error pre k = Some lon /\ first_seen d files (time r) lon (fix_lat r)).
Proof.
  intros Hw. set (T := concat (map (fun f => decimated d (times f)) files)).
  set (LO := concat (map (fun f => map (at_first f (lons f)) _) files)). set (LA := concat (map (fun f => map (at_first f (lats f)) _) files)).
  set (pre := map (fun vi : Z * nat => nth (snd vi) LO None) (unique_index T)). exists pre. cbv zeta.
  unfold make_table. fold pre.
  set (lon := match jumps pre with [] => pre | _ => clean_180cross pre end).
  assert (Llon : len lon = len (unique_index T)).
  { unfold lon. destruct (jumps pre); [|rewrite clean_length]; unfold pre; apply map_length. }
  destruct (map3_fields (map fst (unique_index T)) lon (map (fun vi : Z * nat => nth (snd vi) LA None) (unique_index T))) as [E1 [E2 E3]];
    [rewrite map_length; symmetry; exact Llon|rewrite !map_length; reflexivity|].
  set (rows := map3 mk_fix _ lon _) in *. destruct (unique_index_spec T) as [Ha Hi].
  split; [rewrite E1; apply asc_sorted; exact Ha|]. split.
  { intros t. rewrite E1, unique_times. unfold T. rewrite in_concat. rewrite Exists_exists. split.
    - intros [l [Hl Ht]]. apply in_map_iff in Hl. destruct Hl as [f [<- Hf]]. exists f. split; [exact Hf|]. apply keeps_in. exact Ht.
    - intros [f [Hf Hk]]. exists (decimated d (times f)). split; [apply in_map_iff; exists f; tauto|]. apply keeps_in. exact Hk. }
  split.
  { rewrite E2. unfold cleaned, lon. split; intros H.
    - rewrite (proj2 (jumps_smooth pre) H). reflexivity.
    - destruct (jumps pre) eqn:Ej; [|reflexivity]. exfalso. apply H. apply jumps_smooth. exact Ej. }
  assert (Lr : len rows = len (unique_index T)) by (rewrite <- (map_length time rows), E1, map_length; reflexivity).
  split; [rewrite Lr; unfold pre; apply map_length|].
  intros k r Hk. assert (Hkl : (k < len (unique_index T))%nat) by (rewrite <- Lr; apply nth_error_Some; rewrite Hk; discriminate).
  destruct (nth_error (unique_index T) k) as [[v i]|] eqn:Ek; [|apply nth_error_None in Ek; lia].
  exists (nth i LO None). split; [unfold pre; rewrite nth_error_map, Ek; reflexivity|].
  assert (Et : time r = v).
  { assert (G : nth_error (map time rows) k = Some (time r)) by (rewrite nth_error_map, Hk; reflexivity).
    rewrite E1, nth_error_map, Ek in G. cbn in G. injection G as <-. reflexivity. }
  assert (El : fix_lat r = nth i LA None).
  { assert (G : nth_error (map fix_lat rows) k = Some (fix_lat r)) by (rewrite nth_error_map, Hk; reflexivity).
    rewrite E3, nth_error_map, Ek in G. cbn in G. injection G as <-. reflexivity. }
  rewrite Et, El. apply concat_first; [exact Hw|]. apply Hi. apply nth_error_In in Ek. exact Ek.
Qed.

(** ** Files of a ship *)
Lemma Forall2_len (A B : Type) (P : A -> B -> Prop) l l' : Forall2 P l l' -> List.length l = List.length l'.
Proof. induction 1; [reflexivity|]. cbn [List.length]. congruence. Qed.
Lemma selected_fun (A : Type) (P : A -> Prop) l s1 s2 : selected P l s1 -> selected P l s2 -> s1 = s2.
Proof.
  intros H. revert s2. induction H as [|a l l' Ha _ IH|a l l' Ha _ IH]; intros s2 H2; inversion H2; subst; try contradiction; [reflexivity| |].
  - f_equal. apply IH. assumption.
  - apply IH. assumption.
Qed.

Lemma format_times ship talker allnav ts sub : usable talker -> selected (occurs talker) allnav sub -> sub <> [] ->
  ship_format talker allnav ts ship -> List.length ts = List.length sub /\
  forall c, navcoords allnav talker = Ok c -> ship_reader ship allnav talker = Ok (Some (c, Stamps (map Some ts))).
Proof.
  intros Hu Hs Hn Hf. destruct Hf as [sub' Hs' H|sub' Hs' H|sub' Hs' H|sub' Hs' H|blocks tail E Hl H|sub' Ht Hs' H|sub' ship Ht Hin Hs' H];
    try (pose proof (selected_fun _ _ _ _ _ Hs Hs') as Es; subst sub').
  - split; [symmetry; exact (Forall2_len _ _ _ _ _ H)|]. intros c Hc. unfold ship_reader. cbn. rewrite Hc. cbn [bind]. rewrite (Atlantis_times _ _ _ _ Hu Hs H). reflexivity.
  - split; [symmetry; exact (Forall2_len _ _ _ _ _ H)|]. intros c Hc. unfold ship_reader. cbn. rewrite Hc. cbn [bind]. rewrite (NBP_times _ _ _ _ Hu Hs H). reflexivity.
  - split; [symmetry; exact (Forall2_len _ _ _ _ _ H)|]. intros c Hc. unfold ship_reader. cbn. rewrite Hc. cbn [bind]. rewrite (Thompson_times _ _ _ _ Hu Hs H). reflexivity.
  - split; [symmetry; exact (Forall2_len _ _ _ _ _ H)|]. intros c Hc. unfold ship_reader. cbn. rewrite Hc. cbn [bind]. rewrite (Langseth_times _ _ _ _ Hu Hs H). reflexivity.
  - subst allnav. pose proof (selected_fun _ _ _ _ _ Hs (revelle_selected _ _ _ Hl)) as Es. split.
    + rewrite Es, map_length. apply Forall2_len in H. rewrite map_length in H. symmetry. exact H.
    + intros c Hc. unfold ship_reader. cbn. rewrite Hc. cbn [bind]. rewrite (Revelle_times _ _ _ _ Hu Hl H). reflexivity.
  - split; [symmetry; exact (Forall2_len _ _ _ _ _ H)|]. intros c Hc. unfold ship_reader. cbn. rewrite Hc. cbn [bind]. rewrite (Ride_times _ posix_stamp _ _ ts Hn Hs); [reflexivity| |exact H]. rewrite Ht. exact posix_line.
  - split; [symmetry; exact (Forall2_len _ _ _ _ _ H)|]. intros c Hc.
    assert (HR : navdate_Ride allnav talker = Ok (Stamps (map Some ts))) by (apply (Ride_times _ iso_stamp _ _ _ Hn Hs); [rewrite Ht; exact iso_line|exact H]).
    destruct Hin as [<-|[<-|[]]]; unfold ship_reader.
    + cbn. rewrite Hc. cbn [bind]. rewrite HR. reflexivity.
    + replace (str_eqb talker (lit "GPGGA")) with true by (rewrite Ht; reflexivity). cbn. rewrite Hc. cbn [bind]. rewrite HR. reflexivity.
Qed.

Lemma nav_file_read ship talker allnav f : nav_file ship talker allnav f ->
  well_formed f /\ ship_reader ship allnav talker = Ok (Some (lons f, lats f, Stamps (map Some (times f)))).
Proof.
  intros [sub rows Hu Hs Hn Hr E1 E2 Hf]. destruct (format_times _ _ _ _ _ Hu Hs Hn Hf) as [Hl Hread].
  pose proof (Forall2_len _ _ _ _ _ Hr) as Hrl. split.
  - split; [intros E; rewrite E in Hl; destruct sub; [congruence|discriminate]|]. rewrite E1, E2, !map_length. lia.
  - rewrite E1, E2. apply Hread. apply (navcoords_read _ _ _ _ Hu Hs Hr).
Qed.

Lemma assoc_default s : (forall t, assoc s nav_talkers = Some t <-> default_talker s t) /\ (assoc s nav_talkers = None <-> ~ known_ship s).
Proof.
  assert (H : forall t, assoc s nav_talkers = Some t <-> default_talker s t).
  { intros t. split.
    - intros H. unfold nav_talkers in H. cbn [assoc] in H.
      repeat match type of H with (if str_eqb s ?k then _ else _) = _ => let E := fresh in destruct (str_eqb s k) eqn:E; [apply str_eqb_eq in E; injection H as <-; subst s; first [solve [apply dt_gp; cbn; tauto]|solve [apply dt_in; cbn; tauto]]|] end.
      discriminate.
    - intros [s' Hin|s' Hin]; cbn in Hin; repeat (destruct Hin as [<-|Hin]; [reflexivity|]); destruct Hin. }
  split; [exact H|]. split.
  - intros E [t Ht]. apply H in Ht. congruence.
  - intros Hn. destruct (assoc s nav_talkers) as [t|] eqn:E; [|reflexivity]. exfalso. apply Hn. exists t. apply H. reflexivity.
Qed.

(** ** Files before a given one *)
Lemma read_files_app fsys reader talker sampling d before rest :
  read_files fsys reader talker sampling d (before ++ rest) =
  match read_files fsys reader talker sampling d before with
  | Raise e => Raise e
  | Ok None => Ok None
  | Ok (Some (t, lo, la)) =>
      do more <- read_files fsys reader talker sampling d rest;
      Ok (match more with None => None | Some (t', lo', la') => Some (t ++ t', lo ++ lo', la ++ la') end)
  end.
Proof.
  induction before as [|p before IH].
  - cbn [app read_files]. destruct (read_files fsys reader talker sampling d rest) as [[[[t lo] la]|]|e]; reflexivity.
  - cbn [app read_files]. destruct (fsys p) as [text|]; [|reflexivity].
    destruct (reader (readlines text) talker) as [[[[lon lat] [|times]]|]|e]; cbn [bind]; try reflexivity.
    destruct (file_rows sampling d lon lat times) as [[[t0 lo0] la0]|e]; cbn [bind]; [|reflexivity].
    rewrite IH. destruct (read_files fsys reader talker sampling d before) as [[[[t lo] la]|]|e]; cbn [bind]; try reflexivity.
    destruct (read_files fsys reader talker sampling d rest) as [[[[t' lo'] la']|]|e]; cbn [bind]; try reflexivity.
    rewrite !app_assoc. reflexivity.
Qed.
(** a refusal comes from one file, with good ones before it *)
Lemma read_files_refused fsys reader talker sampling d paths : read_files fsys reader talker sampling d paths = Ok None ->
  exists before p after text x, paths = before ++ p :: after /\ read_files fsys reader talker sampling d before = Ok (Some x) /\ fsys p = Some text /\
    (reader (readlines text) talker = Ok None \/ exists lon lat, reader (readlines text) talker = Ok (Some (lon, lat, Sentinel))).
Proof.
  induction paths as [|p paths IH]; [discriminate|]. cbn [read_files]. destruct (fsys p) as [text|] eqn:Ef; [|discriminate].
  destruct (reader (readlines text) talker) as [[[[lon lat] [|times]]|]|e] eqn:Er; cbn [bind]; intros H; try discriminate.
  - exists [], p, paths, text, ([], [], []). repeat split; try assumption. right. exists lon, lat. exact Er.
  - destruct (file_rows sampling d lon lat times) as [[[t0 lo0] la0]|e] eqn:Ew; cbn [bind] in H; [|discriminate].
    destruct (read_files fsys reader talker sampling d paths) as [[[[t lo] la]|]|e]; cbn [bind] in H; try discriminate.
    destruct (IH eq_refl) as [before [q [after [text' [[[t' lo'] la'] [-> [Hb [Hf Hr]]]]]]]].
    exists (p :: before), q, after, text', (t0 ++ t', lo0 ++ lo', la0 ++ la'). split; [reflexivity|]. split; [|split; assumption].
    cbn [read_files]. rewrite Ef, Er. cbn [bind]. rewrite Ew. cbn [bind]. rewrite Hb. reflexivity.
  - exists [], p, paths, text, ([], [], []). repeat split; try assumption. left. exact Er.
Qed.

Lemma no_talker_coords talker allnav : Forall (fun l => ~ occurs talker l) allnav -> talker_lines talker allnav = [] /\ navcoords allnav talker = Ok ([], []).
Proof.
  intros H. assert (E : talker_lines talker allnav = []).
  { apply talker_lines_selected. induction H; constructor; assumption. }
  split; [exact E|]. unfold navcoords. rewrite E. reflexivity.
Qed.
Lemma no_lines_talker talker allnav : talker_lines talker allnav = [] -> Forall (fun l => ~ occurs talker l) allnav.
Proof.
  intros H. apply Forall_forall. intros l Hl Ho. apply containsb_spec in Ho.
  assert (Hin : In l (talker_lines talker allnav)) by (unfold talker_lines; apply filter_In; split; assumption).
  rewrite H in Hin. destruct Hin.
Qed.

Lemma ship_reader_none ship tk allnav : known_ship ship -> (ship_reader ship allnav tk = Ok None <-> ship = lit "Sikuliaq" /\ tk <> lit "GPGGA").
Proof.
  intros [t Ht]. assert (B : forall (A : Type) (x : res A) (f : A -> res (option nav_arrays)), (forall a, f a <> Ok None) -> bind x f <> Ok None).
  { intros A [a|e] f Hf; cbn [bind]; [apply Hf|discriminate]. }
  assert (B2 : forall c (f : res (list (option Z))), (do t <- f; Ok (Some (c, Stamps t))) <> Ok (None : option nav_arrays)).
  { intros c f. apply B. intros a. discriminate. }
  assert (B3 : forall c (f : res timest), (do t <- f; Ok (Some (c, t))) <> Ok (None : option nav_arrays)).
  { intros c f. apply B. intros a. discriminate. }
  destruct Ht as [s H|s H]; cbn in H; repeat (destruct H as [<-|H]); try destruct H; unfold ship_reader; cbn;
    try (split; [intros E; exfalso; revert E; apply B; intros c; first [apply B2|apply B3]|intros [E _]; discriminate]).
  match goal with |- context [str_eqb tk ?x] => destruct (str_eqb tk x) eqn:E end.
  - apply str_eqb_eq in E. split; [intros E'; exfalso; revert E'; apply B; intros c; apply B3|intros [_ E']; contradiction].
  - apply str_eqb_neq in E. split; [intros _; split; [reflexivity|exact E]|reflexivity].
Qed.
Lemma ship_reader_sentinel ship tk allnav lon lat : known_ship ship -> ship_reader ship allnav tk = Ok (Some (lon, lat, Sentinel)) ->
  In ship [lit "Ride"; lit "Sikuliaq"] /\ Forall (fun l => ~ occurs tk l) allnav.
Proof.
  intros [t Ht]. assert (B2 : forall c (f : res (list (option Z))), (do t <- f; Ok (Some (c, Stamps t))) <> Ok (Some (lon, lat, Sentinel))).
  { intros c [a|e]; discriminate. }
  assert (B : forall (f : res (list (option Z))), (do c <- navcoords allnav tk; do t <- f; Ok (Some (c, Stamps t))) <> Ok (Some (lon, lat, Sentinel))).
  { intros f. destruct (navcoords allnav tk); [apply B2|discriminate]. }
  assert (B3 : (do c <- navcoords allnav tk; do t <- navdate_Ride allnav tk; Ok (Some (c, t))) = Ok (Some (lon, lat, Sentinel)) -> Forall (fun l => ~ occurs tk l) allnav).
  { destruct (navcoords allnav tk); [|discriminate]. cbn [bind]. unfold navdate_Ride. destruct (talker_lines tk allnav) eqn:E; [intros _; apply no_lines_talker; exact E|].
    destruct (mapM _ _); discriminate. }
  destruct Ht as [s H|s H]; cbn in H; repeat (destruct H as [<-|H]); try destruct H; unfold ship_reader; cbn;
    try (intros E; exfalso; revert E; apply B).
  - match goal with |- context [str_eqb tk ?x] => destruct (str_eqb tk x); [|discriminate] end. intros E. split; [tauto|]. apply B3. exact E.
  - intros E. split; [tauto|]. apply B3. exact E.
Qed.
Lemma ship_reader_lacking ship tk allnav : In ship [lit "Ride"; lit "Sikuliaq"] -> (ship = lit "Sikuliaq" -> tk = lit "GPGGA") ->
  Forall (fun l => ~ occurs tk l) allnav -> ship_reader ship allnav tk = Ok (Some ([], [], Sentinel)).
Proof.
  intros Hin Hs H. destruct (no_talker_coords _ _ H) as [E1 E2]. assert (E3 : navdate_Ride allnav tk = Ok Sentinel) by (unfold navdate_Ride; rewrite E1; reflexivity).
  destruct Hin as [<-|[<-|[]]]; unfold ship_reader;
    [|replace (str_eqb tk (lit "GPGGA")) with true by (symmetry; apply str_eqb_eq; exact (Hs eq_refl))]; cbn; rewrite E2; cbn [bind]; rewrite E3; reflexivity.
Qed.
