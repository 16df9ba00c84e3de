(** Proofs for the status bits. *)
From Coq Require Import List ZArith Ascii String Bool Lia.
From Verif Require Import M_Py L_Base M_Status S_Status.
Import ListNotations.
Open Scope Z_scope.

Local Notation len := List.length.

Lemma bin_pos_length p : Z.of_nat (len (bin_pos p)) = Z.log2 (Zpos p) + 1.
Proof.
  induction p as [p IH|p IH|]; [| |reflexivity].
  - cbn [bin_pos]. rewrite app_length. cbn [len].
    change (Zpos p~1) with (2 * Zpos p + 1). rewrite Z.log2_succ_double by lia. lia.
  - cbn [bin_pos]. rewrite app_length. cbn [len].
    change (Zpos p~0) with (2 * Zpos p). rewrite Z.log2_double by lia. lia.
Qed.

Lemma bin_pos_nth p : forall j, (j < len (bin_pos p))%nat ->
  nth (len (bin_pos p) - 1 - j) (bin_pos p) "?"%char = bit_char (Zpos p) (Z.of_nat j).
Proof.
  induction p as [p IH|p IH|]; intros j Hj.
  - cbn [bin_pos] in *. rewrite app_length in *. cbn [len] in *.
    destruct j as [|j].
    + rewrite app_nth2 by lia.
      replace (len (bin_pos p) + 1 - 1 - 0 - len (bin_pos p))%nat with O by lia.
      change (Zpos p~1) with (2 * Zpos p + 1). unfold bit_char.
      replace (Z.of_nat 0) with 0 by lia. rewrite Z.testbit_odd_0. reflexivity.
    + rewrite app_nth1 by lia.
      replace (len (bin_pos p) + 1 - 1 - S j)%nat with (len (bin_pos p) - 1 - j)%nat by lia.
      rewrite IH by lia. change (Zpos p~1) with (2 * Zpos p + 1). unfold bit_char.
      replace (Z.of_nat (S j)) with (Z.succ (Z.of_nat j)) by lia.
      rewrite Z.testbit_odd_succ by lia. reflexivity.
  - cbn [bin_pos] in *. rewrite app_length in *. cbn [len] in *.
    destruct j as [|j].
    + rewrite app_nth2 by lia.
      replace (len (bin_pos p) + 1 - 1 - 0 - len (bin_pos p))%nat with O by lia.
      change (Zpos p~0) with (2 * Zpos p). unfold bit_char.
      replace (Z.of_nat 0) with 0 by lia. rewrite Z.testbit_even_0. reflexivity.
    + rewrite app_nth1 by lia.
      replace (len (bin_pos p) + 1 - 1 - S j)%nat with (len (bin_pos p) - 1 - j)%nat by lia.
      rewrite IH by lia. change (Zpos p~0) with (2 * Zpos p). unfold bit_char.
      replace (Z.of_nat (S j)) with (Z.succ (Z.of_nat j)) by lia.
      rewrite Z.testbit_even_succ by lia. reflexivity.
  - simpl in Hj. assert (j = O) by lia. subst j. reflexivity.
Qed.

(** width of the formatted word *)
Lemma format_length_small s : 0 <= s < 2 ^ 16 -> len (format016b s) = 16%nat.
Proof.
  intros H. unfold format016b. destruct s as [|p|p]; [reflexivity| |lia].
  rewrite !app_length, repeat_length. cbn [len].
  pose proof (bin_pos_length p). assert (Z.log2 (Zpos p) < 16) by (apply Z.log2_lt_pow2; lia). lia.
Qed.

Lemma format_length_ge s : (16 <= len (format016b s))%nat.
Proof.
  unfold format016b. destruct s as [|p|p]; rewrite !app_length, repeat_length; cbn [len]; lia.
Qed.

Lemma format_nth_small s i : 0 <= s < 2 ^ 16 -> (i < 16)%nat ->
  nth i (format016b s) "?"%char = bit_char s (15 - Z.of_nat i).
Proof.
  intros H Hi. unfold format016b. destruct s as [|p|p]; [| |lia].
  - unfold bit_char. rewrite Z.testbit_0_l.
    do 16 (destruct i as [|i]; [reflexivity|]). lia.
  - cbn [app len]. rewrite Nat.sub_0_r.
    pose proof (bin_pos_length p) as HL.
    assert (Hlog : Z.log2 (Zpos p) < 16) by (apply Z.log2_lt_pow2; lia).
    set (d := len (bin_pos p)) in *.
    destruct (lt_dec i (16 - d)) as [Hlt|Hge].
    + rewrite app_nth1 by (rewrite repeat_length; lia). rewrite nth_repeat_lt by lia.
      unfold bit_char. rewrite Z.bits_above_log2 by lia. reflexivity.
    + rewrite app_nth2 by (rewrite repeat_length; lia). rewrite repeat_length.
      replace (i - (16 - d))%nat with (d - 1 - (15 - i))%nat by lia.
      unfold d in *. rewrite bin_pos_nth by lia. f_equal. lia.
Qed.

Lemma format_nth_big s i : 2 ^ 16 <= s -> (i < 16)%nat ->
  nth i (format016b s) "?"%char = bit_char s (Z.log2 s - Z.of_nat i).
Proof.
  intros H Hi. unfold format016b. destruct s as [|p|p]; [lia| |lia].
  cbn [app len]. rewrite Nat.sub_0_r.
  pose proof (bin_pos_length p) as HL.
  assert (Hlog : 16 <= Z.log2 (Zpos p)) by (apply Z.log2_le_pow2; lia).
  replace (16 - len (bin_pos p))%nat with O by lia. cbn [repeat app].
  replace i with (len (bin_pos p) - 1 - (len (bin_pos p) - 1 - i))%nat at 1 by lia.
  rewrite bin_pos_nth by lia. f_equal. lia.
Qed.

Lemma getr_nth A (l : list A) i d : (i < len l)%nat -> getr l i = Ok (nth i l d).
Proof.
  intros H. unfold getr. rewrite (nth_error_nth' l d H). reflexivity.
Qed.

(** the dictionary loop: names are pairwise distinct *)
Lemma dict_set_fresh V d k (v : V) : ~ In k (map fst d) -> dict_set d k v = d ++ [(k, v)].
Proof.
  induction d as [|[k' v'] d IH]; intros H; [reflexivity|]. simpl.
  destruct (String.eqb_spec k k') as [->|]; [exfalso; apply H; left; reflexivity|].
  rewrite IH; [reflexivity|]. intros Hin. apply H. right. exact Hin.
Qed.

Lemma decode_loop_spec bt : (16 <= len bt)%nat -> forall fs i out,
  (i + len fs <= 16)%nat -> NoDup (map fst out ++ fs) ->
  decode_loop bt i fs out =
    Ok (out ++ combine fs (map (fun k => nth k bt "?"%char) (seq i (len fs)))).
Proof.
  intros Hbt. induction fs as [|f fs IH]; intros i out Hi Hnd.
  - simpl. rewrite app_nil_r. reflexivity.
  - cbn [decode_loop]. rewrite (getr_nth _ bt i "?"%char) by (cbn [len] in Hi; lia).
    cbn [bind]. rewrite dict_set_fresh.
    + rewrite IH.
      * rewrite <- app_assoc. reflexivity.
      * cbn [len] in Hi. lia.
      * rewrite map_app. cbn [map fst]. rewrite <- app_assoc. exact Hnd.
    + intros Hin. apply NoDup_remove_2 in Hnd. apply Hnd. apply in_or_app. left. exact Hin.
Qed.

Lemma flags_nodup : NoDup flags.
Proof.
  repeat (constructor; [cbn; intros H; repeat (destruct H as [H|H]; [discriminate H|]); exact H|]).
  constructor.
Qed.

Lemma flags_documented : flags = map fst documented.
Proof. reflexivity. Qed.

Lemma decode_int_eq s : decode_int s =
  Ok (combine flags (map (fun k => nth k (format016b s) "?"%char) (seq 0 16))).
Proof.
  unfold decode_int. rewrite decode_loop_spec; [reflexivity| | |].
  - apply format_length_ge.
  - simpl; lia.
  - exact flags_nodup.
Qed.

Lemma decode_int_small s : 0 <= s < 2 ^ 16 -> decode_int s = Ok (expected s).
Proof.
  intros H. rewrite decode_int_eq. f_equal.
  rewrite (map_ext_in _ (fun k => bit_char s (15 - Z.of_nat k))).
  - reflexivity.
  - intros k Hk. apply in_seq in Hk. apply format_nth_small; lia.
Qed.

Lemma bit_char_inj s s' n : bit_char s n = bit_char s' n -> Z.testbit s n = Z.testbit s' n.
Proof. unfold bit_char. destruct (Z.testbit s n), (Z.testbit s' n); try reflexivity; discriminate. Qed.

Lemma expected_inj s s' : 0 <= s < 2 ^ 16 -> 0 <= s' < 2 ^ 16 -> expected s = expected s' -> s = s'.
Proof.
  intros H H' E. apply Z.bits_inj'. intros n Hn.
  destruct (Z_lt_le_dec n 16) as [Hlt|Hge].
  - unfold expected, documented in E. cbn [map] in E.
    injection E. intros. 
    assert (Hc : n = 0 \/ n = 1 \/ n = 2 \/ n = 3 \/ n = 4 \/ n = 5 \/ n = 6 \/ n = 7 \/ n = 8 \/
      n = 9 \/ n = 10 \/ n = 11 \/ n = 12 \/ n = 13 \/ n = 14 \/ n = 15) by lia.
    repeat (destruct Hc as [->|Hc]; [apply bit_char_inj; assumption|]).
    subst n. apply bit_char_inj; assumption.
  - assert (Hz : forall t, 0 <= t < 2 ^ 16 -> Z.testbit t n = false).
    { intros t Ht. destruct (Z.eq_dec t 0) as [->|]; [apply Z.testbit_0_l|].
      apply Z.bits_above_log2; [lia|]. assert (Z.log2 t < 16) by (apply Z.log2_lt_pow2; lia). lia. }
    rewrite (Hz s H), (Hz s' H'). reflexivity.
Qed.

(** ** Tables *)
Lemma has_col_false t k : ~ In k (map fst t) -> has_col t k = false.
Proof.
  intros H. unfold has_col. destruct (existsb _ t) eqn:E; [|reflexivity].
  exfalso. apply existsb_exists in E. destruct E as [c [Hc He]].
  apply String.eqb_eq in He. subst k. apply H. apply in_map. exact Hc.
Qed.

Lemma has_col_true t k : In k (map fst t) -> has_col t k = true.
Proof.
  intros H. apply in_map_iff in H. destruct H as [c [<- Hc]].
  unfold has_col. apply existsb_exists. exists c. split; [exact Hc|]. apply String.eqb_refl.
Qed.

Lemma get_col_unique t k v : In (k, v) t -> NoDup (map fst t) -> get_col t k = Ok v.
Proof.
  intros Hin Hnd. unfold get_col.
  assert (E : filter (fun c => String.eqb k (fst c)) t = [(k, v)]).
  { induction t as [|[k' v'] t IH]; [destruct Hin|]. simpl in *.
    inversion Hnd as [|x l Hx Hnd']; subst.
    destruct (String.eqb_spec k k') as [->|Hne].
    - destruct Hin as [E|Hin].
      + injection E as ->. f_equal.
        clear - Hx. induction t as [|[k2 v2] t IH]; [reflexivity|]. simpl.
        destruct (String.eqb_spec k' k2) as [->|]; [exfalso; apply Hx; left; reflexivity|].
        apply IH. intros Hin. apply Hx. right. exact Hin.
      + exfalso. apply Hx. apply (in_map fst) in Hin. exact Hin.
    - destruct Hin as [E|Hin]; [injection E as -> ->; congruence|]. apply IH; assumption. }
  rewrite E. reflexivity.
Qed.

(** column number i of decoded characters *)
Definition bit_col (ss : list Z) (i : nat) : list cell :=
  map (fun s => CChar (nth i (format016b s) "?"%char)) ss.

Lemma insert_loop_spec ss (c0 : column) (rest : table) : forall fs i (done : table),
  (i + len fs <= 16)%nat -> len done = i ->
  NoDup fs -> (forall f, In f fs -> ~ In f (map fst (c0 :: done ++ rest))) ->
  insert_loop (map format016b ss) i fs (c0 :: done ++ rest) =
  (c0 :: done ++ combine fs (map (bit_col ss) (seq i (len fs))) ++ rest, Ok tt).
Proof.
  induction fs as [|f fs IH]; intros i done Hi Hd Hnd Hfresh.
  - simpl. reflexivity.
  - cbn [insert_loop].
    assert (E : mapM (fun b => do c <- getr b i; Ok (CChar c)) (map format016b ss) = Ok (bit_col ss i)).
    { unfold bit_col. rewrite (mapM_Ok_map _ _ _ (fun b => CChar (nth i b "?"%char))).
      - rewrite map_map. reflexivity.
      - intros b Hb. apply in_map_iff in Hb. destruct Hb as [s [<- _]].
        rewrite (getr_nth _ _ i "?"%char); [reflexivity|].
        pose proof (format_length_ge s). cbn [len] in Hi. lia. }
    rewrite E. unfold insert_col.
    rewrite has_col_false by (apply Hfresh; left; reflexivity).
    match goal with |- context [Nat.ltb ?a ?b] => replace (Nat.ltb a b) with false end.
    2:{ symmetry. apply Nat.ltb_ge. cbn [len]. rewrite app_length. lia. }
    cbn [firstn skipn].
    rewrite firstn_app, skipn_app. rewrite <- Hd.
    rewrite firstn_all, skipn_all, Nat.sub_diag. cbn [firstn skipn app].
    rewrite app_nil_r.
    inversion Hnd as [|x l Hx Hnd']; subst x l.
    assert (Et : c0 :: done ++ (f, bit_col ss (len done)) :: rest
      = c0 :: (done ++ [(f, bit_col ss (len done))]) ++ rest)
      by (rewrite <- app_assoc; reflexivity).
    rewrite Et. rewrite (IH (S (len done)) (done ++ [(f, bit_col ss (len done))])).
    + rewrite <- app_assoc. reflexivity.
    + cbn [len] in Hi. lia.
    + rewrite app_length. cbn [len]. lia.
    + exact Hnd'.
    + intros g Hg Hin. rewrite <- app_assoc in Hin. cbn [map fst app] in Hin.
      rewrite map_app in Hin. cbn [map fst app] in Hin.
      destruct Hin as [Hin|Hin].
      * apply (Hfresh g); [right; exact Hg|]. left. exact Hin.
      * apply in_app_or in Hin. destruct Hin as [Hin|[Hin|Hin]].
        -- apply (Hfresh g); [right; exact Hg|]. right. rewrite map_app. apply in_or_app. left. exact Hin.
        -- cbn in Hin. subst g. contradiction.
        -- apply (Hfresh g); [right; exact Hg|]. right. rewrite map_app. apply in_or_app. right. exact Hin.
Qed.

Lemma mapM_format ss : mapM format_cell (map CInt ss) = Ok (map format016b ss).
Proof.
  rewrite (mapM_Ok_map _ _ _ (fun c => match c with CInt z => format016b z | _ => [] end)).
  - rewrite map_map. reflexivity.
  - intros a Ha. apply in_map_iff in Ha. destruct Ha as [z [<- _]]. reflexivity.
Qed.

Lemma decode_df_ok (c0 : column) (rest : table) key ss :
  NoDup (map fst (c0 :: rest)) -> In (key, map CInt ss) (c0 :: rest) ->
  (forall f, In f flags -> ~ In f (map fst (c0 :: rest))) ->
  decode_df (c0 :: rest) key =
  (c0 :: combine flags (map (bit_col ss) (seq 0 16)) ++ rest, Ok tt).
Proof.
  intros Hnd Hin Hfresh. unfold decode_df. rewrite (get_col_unique _ _ _ Hin Hnd).
  rewrite mapM_format.
  pose proof (insert_loop_spec ss c0 rest flags 0 []) as H. cbn [app] in H.
  rewrite H; [reflexivity| | | |].
  - simpl; lia.
  - reflexivity.
  - exact flags_nodup.
  - exact Hfresh.
Qed.

Lemma bit_col_small ss i : (i < 16)%nat -> Forall (fun s => 0 <= s < 2 ^ 16) ss ->
  bit_col ss i = map (fun s => CChar (bit_char s (15 - Z.of_nat i))) ss.
Proof.
  intros Hi H. unfold bit_col. apply map_ext_in. intros s Hs.
  rewrite format_nth_small; [reflexivity| |exact Hi].
  rewrite Forall_forall in H. apply H. exact Hs.
Qed.

(** a table that already has the first flag column: nothing happens but an exception *)
Lemma decode_df_again t key ss : get_col t key = Ok (map CInt ss) ->
  In "clamp status"%string (map fst t) -> decode_df t key = (t, Raise ValueError).
Proof.
  intros Hk H. unfold decode_df. rewrite Hk, mapM_format.
  unfold flags. cbn [insert_loop].
  rewrite (mapM_Ok_map _ _ _ (fun b => CChar (nth 0 b "?"%char))).
  - unfold insert_col. rewrite has_col_true by exact H. reflexivity.
  - intros b Hb. apply in_map_iff in Hb. destruct Hb as [s [<- _]].
    rewrite (getr_nth _ _ 0 "?"%char); [reflexivity|]. pose proof (format_length_ge s). lia.
Qed.
