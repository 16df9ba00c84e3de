(** Properties C05-C07: decode_dgs_status_bits (shipgrav/utils.py 74-105). *)
From Coq Require Import List ZArith Ascii String Bool Lia.
From Verif Require Import M_Py L_Base M_Status S_Status L_Status.
Import ListNotations.
Open Scope Z_scope.

(** C05: a 16-bit word decodes to its bits under the documented names. *)
Theorem C05_decode_16bit : forall s, 0 <= s < 2 ^ 16 ->
  decode_int s = Ok (map (fun '(n, b) => (n, bit_char s b)) documented).
Proof. exact decode_int_small. Qed.
Print Assumptions C05_decode_16bit.

(** C05: the decoding determines the word. *)
Theorem C05_decode_injective : forall s s', 0 <= s < 2 ^ 16 -> 0 <= s' < 2 ^ 16 ->
  decode_int s = decode_int s' -> s = s'.
Proof.
  intros s s' H H' E. rewrite !decode_int_small in E by assumption.
  apply (expected_inj s s' H H'). congruence.
Qed.
Print Assumptions C05_decode_injective.

Example C05_case : 0 <= 21845 < 2 ^ 16 /\
  exists d, decode_int 21845 = Ok d /\ nth 1 d (""%string, "?"%char) = ("GPSsync"%string, "1"%char).
Proof. split; [lia|]. eexists. split; reflexivity. Qed.

(** C06: for words of more than 16 bits the flags are the 16 most significant
    bits, so "flag i is bit 15-i" fails. *)
Theorem C06_wide_words_top_bits : forall s, 2 ^ 16 <= s ->
  decode_int s = Ok (map (fun '(n, b) => (n, bit_char s (Z.log2 s - 15 + b))) documented).
Proof.
  intros s H. rewrite decode_int_eq. f_equal.
  rewrite (map_ext_in _ (fun k => bit_char s (Z.log2 s - Z.of_nat k))).
  - change documented with (map (fun i => (nth i flags ""%string, 15 - Z.of_nat i)) (seq 0 16)).
    rewrite map_map.
    transitivity (map (fun i => (nth i flags ""%string, bit_char s (Z.log2 s - Z.of_nat i))) (seq 0 16)).
    + reflexivity.
    + apply map_ext. intros i. f_equal. f_equal. lia.
  - intros k Hk. apply in_seq in Hk. apply format_nth_big; lia.
Qed.
Print Assumptions C06_wide_words_top_bits.

Theorem C06_negative_words_minus_sign : forall s, s < 0 ->
  exists d, decode_int s = Ok d /\ nth 0 d (""%string, "?"%char) = ("clamp status"%string, "-"%char).
Proof.
  intros s H. rewrite decode_int_eq. eexists. split; [reflexivity|].
  destruct s as [|p|p]; [lia|lia|]. reflexivity.
Qed.
Print Assumptions C06_negative_words_minus_sign.

(** C06: every word of 17 bits reports the clamp flag whatever bit 15 is. *)
Theorem C06_flag_is_bit_15_minus_i_refuted :
  (exists s, 2 ^ 16 <= s /\ exists d, decode_int s = Ok d /\
     snd (nth 0 d (""%string, "?"%char)) <> bit_char s 15) /\
  (exists s, s < 0 /\ exists d, decode_int s = Ok d /\
     snd (nth 0 d (""%string, "?"%char)) <> bit_char s 15).
Proof.
  split.
  - exists (2 ^ 16). split; [lia|]. eexists. split; [reflexivity|]. discriminate.
  - exists (-1). split; [lia|]. eexists. split; [reflexivity|]. discriminate.
Qed.
Print Assumptions C06_flag_is_bit_15_minus_i_refuted.

Example C06_case : 2 ^ 16 <= 98304 /\ -5 < 0.
Proof. lia. Qed.

(** C07: on a table, the flag columns come right after the first column, row by row
    equal to the scalar decoding; everything else is kept. *)
Theorem C07_dataframe_rows : forall (c0 : column) (rest : table) (key : string) (ss : list Z),
  NoDup (map fst (c0 :: rest)) ->
  In (key, map CInt ss) (c0 :: rest) ->
  (forall f b, In (f, b) documented -> ~ In f (map fst (c0 :: rest))) ->
  Forall (fun s => 0 <= s < 2 ^ 16) ss ->
  decode_df (c0 :: rest) key =
    (c0 :: map (fun '(f, b) => (f, map (fun s => CChar (bit_char s b)) ss)) documented ++ rest, Ok tt).
Proof.
  intros c0 rest key ss Hnd Hin Hf Hs. rewrite (decode_df_ok c0 rest key ss); auto.
  - f_equal. f_equal. f_equal.
    rewrite (map_ext_in _ (fun i => map (fun s => CChar (bit_char s (15 - Z.of_nat i))) ss)).
    + reflexivity.
    + intros i Hi. apply in_seq in Hi. apply bit_col_small; [lia|exact Hs].
  - intros f Hfl. rewrite flags_documented in Hfl. apply in_map_iff in Hfl.
    destruct Hfl as [[f' b] [E Hd]]. simpl in E. subst f'. exact (Hf f b Hd).
Qed.
Print Assumptions C07_dataframe_rows.

(** C07: a second call on the decoded table raises and changes nothing. *)
Theorem C07_second_call_raises : forall (c0 : column) (rest : table) (key : string) (ss : list Z) t',
  NoDup (map fst (c0 :: rest)) ->
  In (key, map CInt ss) (c0 :: rest) ->
  (forall f b, In (f, b) documented -> ~ In f (map fst (c0 :: rest))) ->
  decode_df (c0 :: rest) key = (t', Ok tt) ->
  decode_df t' key = (t', Raise ValueError).
Proof.
  intros c0 rest key ss t' Hnd Hin Hf E.
  assert (Hf' : forall f, In f flags -> ~ In f (map fst (c0 :: rest))).
  { intros f Hfl. rewrite flags_documented in Hfl. apply in_map_iff in Hfl.
    destruct Hfl as [[f' b] [E' Hd]]. simpl in E'. subst f'. exact (Hf f b Hd). }
  rewrite (decode_df_ok c0 rest key ss) in E by auto.
  set (mid := combine flags (map (bit_col ss) (seq 0 16))) in E.
  assert (Hmid : map fst mid = flags) by reflexivity.
  clearbody mid. apply (f_equal fst) in E. cbn [fst] in E. subst t'.
  apply decode_df_again with (ss := ss).
  - apply get_col_unique.
    + destruct Hin as [Hin|Hin]; [left; exact Hin|]. right. apply in_or_app. right. exact Hin.
    + cbn [map] in *. rewrite map_app, Hmid.
      inversion Hnd as [|x l Hx Hnd']; subst x l. constructor.
      * intros Hi. apply in_app_or in Hi. destruct Hi as [Hi|Hi]; [|contradiction].
        apply (Hf' _ Hi). left. reflexivity.
      * assert (Happ : forall l1 l2 : list string, NoDup l1 -> NoDup l2 ->
          (forall a, In a l1 -> ~ In a l2) -> NoDup (l1 ++ l2)).
        { clear. induction l1 as [|a l1 IH]; intros l2 H1 H2 H; [exact H2|].
          inversion H1; subst. simpl. constructor.
          - intros Hi. apply in_app_or in Hi. destruct Hi; [contradiction|].
            apply (H a); [left; reflexivity|assumption].
          - apply IH; auto. intros b Hb. apply H. right. exact Hb. }
        apply Happ; [exact flags_nodup|exact Hnd'|].
        intros f Hfl Hr. apply (Hf' f Hfl). right. exact Hr.
  - cbn [map]. rewrite map_app, Hmid. right. apply in_or_app. left. left. reflexivity.
Qed.
Print Assumptions C07_second_call_raises.

Example C07_case :
  let t := [("date"%string, [COther 0; COther 1]); ("status"%string, [CInt 5; CInt 32768])] in
  NoDup (map fst t) /\ In ("status"%string, map CInt [5; 32768]) t /\
  (forall f b, In (f, b) documented -> ~ In f (map fst t)) /\
  Forall (fun s => 0 <= s < 2 ^ 16) [5; 32768].
Proof.
  cbv zeta. split; [|split; [|split]].
  - cbn. constructor; [cbn; intros [H|[]]; discriminate H|]. constructor; [intros []|constructor].
  - right; left; reflexivity.
  - intros f b H [E|[E|[]]]; cbn in E; subst f; cbn in H;
      repeat (destruct H as [H|H]; [discriminate H|]); exact H.
  - repeat constructor; lia.
Qed.
