(** Property theorems C01-C03, C05-C09, C11 (statements only; proofs are in
    the other files).

    Vocabulary used in the statements.
    - [has v l]: the words [l] stand at the beginning of the view [v], which
      may lie anywhere in a larger XSS array and may extend beyond [l].
    - [content v l]: the view shows exactly [l] (an object that owns its data,
      or a block delimited exactly).
    - [bm : build] is Debug or Release.
    - k-th elements are given with [nth_error], indices of the API are one-based. *)
From Coq Require Import ZArith Bool List Lia Permutation Sorted.
From Coq Require Import ZifyBool ZifyNat.
From Verif Require Import PropLemmasBasic Truncated.
Import ListNotations.
Open Scope Z_scope.

(** Concrete cases by computation. *)
Ltac conc := repeat (split; [vm_compute; reflexivity|]); vm_compute; reflexivity.

(** ** C01 *)

(** Every int stored as a double anywhere in an XSS array is read back by IXSS. *)
Theorem C01_integers_survive_storage : forall bm v l k n,
  has v l -> nth_error l k = Some (dbl n) -> - 2 ^ 31 <= n < 2 ^ 31 ->
  ixss bm v (Z.of_nat k + 1) = Ok n.
Proof. exact ixss_any. Qed.
Print Assumptions C01_integers_survive_storage.

(** The conversion to double is exact for every integer below 2^53 in absolute
    value: rounding and truncating both give the integer back. *)
Theorem C01_cast_exact : forall n, - 2 ^ 53 < n < 2 ^ 53 ->
  sf_round (dbl n) = Some n /\ sf_trunc (dbl n) = Some n.
Proof. intros n H. exact (conj (sf_round_dbl n H) (sf_trunc_dbl n H)). Qed.
Print Assumptions C01_cast_exact.

Example C01_example :
  ixss Debug (own [dbl 7; dbl (-2147483648); dbl 2147483647]) 2 = Ok (-2147483648)
  /\ ixss Debug (own [dbl 7; dbl (-2147483648); dbl 2147483647]) 3 = Ok 2147483647.
Proof. split; vm_compute; reflexivity. Qed.

(** ** C02 *)

Theorem C02_one_based_access : forall bm v l k x,
  has v l -> nth_error l k = Some x -> xss bm v (Z.of_nat k + 1) = Ok x.
Proof. intros bm v l k x H Hk. exact (xss_has bm v l _ k x H Hk eq_refl). Qed.
Print Assumptions C02_one_based_access.

Theorem C02_out_of_range_throws_in_debug : forall v l i,
  content v l -> 0 <= i < 2 ^ 64 -> ~ (1 <= i <= len l) -> xss Debug v i = Throw OutOfRange.
Proof. exact xss_oob. Qed.
Print Assumptions C02_out_of_range_throws_in_debug.

Theorem C02_release_agrees_with_debug : forall v i x,
  xss Debug v i = Ok x -> xss Release v i = Ok x.
Proof. exact debug_release. Qed.
Print Assumptions C02_release_agrees_with_debug.

Example C02_example : let v := View [dbl 9; dbl 1; dbl 2; dbl 3; dbl 8] 1 4 in
  content v [dbl 1; dbl 2; dbl 3]
  /\ xss Debug v 3 = Ok (dbl 3) /\ xss Debug v 4 = Throw OutOfRange
  /\ xss Debug v 0 = Throw OutOfRange /\ xss Release v 4 = Ok (dbl 8).
Proof.
  cbn zeta. split; [|vm_compute; auto]. split; [|reflexivity].
  exists [dbl 9], [dbl 8]. repeat split; vm_compute; auto; discriminate.
Qed.

(** ** C03 *)

Theorem C03_subrange : forall bm v l1 l2 l3,
  has v (l1 ++ l2 ++ l3) -> xssr bm v (len l1 + 1) (len l2) = Ok l2.
Proof. intros bm v l1 l2 l3 H. exact (xssr_has bm v l1 l2 l3 _ _ H eq_refl eq_refl). Qed.
Print Assumptions C03_subrange.

(** What the Debug checks do reject: a start outside [1, n+1], and an end beyond
    position n+1.  Missing from the full property: the end at n+1, see below. *)
Theorem C03_rejects_partial : forall v l i n, content v l -> 0 <= i < 2 ^ 64 ->
  (~ (1 <= i <= len l + 1) -> xssr Debug v i n = Throw OutOfRange)
  /\ (1 <= i -> 0 < n -> i + n < 2 ^ 64 -> len l + 1 < i + n - 1 -> xssr Debug v i n = Throw OutOfRange).
Proof.
  intros v l i n C Hi. split; [intros H|intros H1 H2 H3 H4].
  - exact (xssr_index_oob v l i n C Hi H).
  - exact (xssr_oob v l i n C H1 H2 H3 H4).
Qed.
Print Assumptions C03_rejects_partial.

(** Every request there is (indices and lengths are 64 bit numbers), with nothing left open:
    the block's words [l] stand between [pre] and [post] in their vector.  Requests inside the
    block give its words; an end one past the block gives the word behind it, undefined behaviour
    if there is none; a length so large that the end wraps around is undefined behaviour; all
    other requests throw. *)
Theorem C03_every_request : forall v pre l post i n, buf v = pre ++ l ++ post -> vbeg v = len pre -> vend v = len pre + len l -> len (buf v) < max_words ->
  0 <= i < 2 ^ 64 -> 0 <= n < 2 ^ 64 ->
  (1 <= i -> i + n - 1 <= len l -> xssr Debug v i n = Ok (firstn (Z.to_nat n) (skipn (Z.to_nat (i - 1)) l)))
  /\ (1 <= i <= len l + 1 -> i + n - 1 = len l + 1 ->
        xssr Debug v i n = match post with w :: _ => Ok (skipn (Z.to_nat (i - 1)) l ++ [w]) | [] => UB end)
  /\ (1 <= i <= len l + 1 -> 2 ^ 64 + 1 <= i + n - 1 -> xssr Debug v i n = UB)
  /\ (~ (1 <= i <= len l + 1) \/ len l + 1 < i + n - 1 <= 2 ^ 64 -> xssr Debug v i n = Throw OutOfRange).
Proof.
  intros v pre l post i n Hb Hs He Hm Hi Hn.
  assert (C : content v l). { split; [exists pre, post; repeat split; try assumption; rewrite ?Hb, ?len_app; pose proof (len_nonneg post); lia|lia]. }
  pose proof (len_nonneg pre) as N1. pose proof (len_nonneg l) as N2. pose proof (len_nonneg post) as N3. assert (Lb : len pre + len l + len post < 2 ^ 31) by (rewrite Hb, !len_app in Hm; unfold max_words in Hm; lia).
  split; [|split; [|split]].
  - intros H1 H2. assert (E : l = firstn (Z.to_nat (i - 1)) l ++ firstn (Z.to_nat n) (skipn (Z.to_nat (i - 1)) l) ++ skipn (Z.to_nat n) (skipn (Z.to_nat (i - 1)) l)) by (rewrite !firstn_skipn; reflexivity).
    apply (xssr_has Debug v (firstn (Z.to_nat (i - 1)) l) _ (skipn (Z.to_nat n) (skipn (Z.to_nat (i - 1)) l))).
    + rewrite <- E. exact (proj1 C).
    + unfold len in *. rewrite firstn_length. lia.
    + unfold len in *. rewrite firstn_length, skipn_length. lia.
  - intros H1 H2. unfold xssr, iter. cbn [debug]. rewrite (vlen_content _ _ C). rewrite (u64_small n), (u64_small i), (u64_small (len l + 1)), (u64_small (i + n - 1)) by lia.
    unfold verifyIndex, throw_if. replace ((i <? 1) || (len l + 1 <? i)) with false by lia. cbn [bind]. replace (0 <? n) with true by lia.
    replace ((i + n - 1 <? 1) || (len l + 1 <? i + n - 1)) with false by lia. cbn [bind].
    rewrite !s64_small by lia. rewrite Hs. unfold read_range. rewrite Hb, !len_app. destruct post as [|w post].
    + assert (Z0 : len (@nil double) = 0) by reflexivity. match goal with |- (if ?b then _ else _) = _ => replace b with false by lia end. reflexivity.
    + rewrite len_cons in Lb |- *. pose proof (len_nonneg post). match goal with |- (if ?b then _ else _) = _ => replace b with true by lia end.
      f_equal. unfold slice. replace (Z.to_nat (len pre + (i - 1))) with (length pre + Z.to_nat (i - 1))%nat by (unfold len in *; lia).
      rewrite skipn_app. rewrite skipn_all2 by lia. replace (length pre + Z.to_nat (i - 1) - length pre)%nat with (Z.to_nat (i - 1)) by lia. cbn [app].
      rewrite skipn_app. replace (Z.to_nat (i - 1) - length l)%nat with 0%nat by (unfold len in *; lia). cbn [skipn].
      rewrite firstn_app. rewrite firstn_all2 by (rewrite skipn_length; unfold len in *; lia). f_equal.
      replace (Z.to_nat _ - length (skipn (Z.to_nat (i - 1)) l))%nat with 1%nat by (rewrite skipn_length; unfold len in *; lia). reflexivity.
  - intros H1 H2. unfold xssr, iter. cbn [debug]. rewrite (vlen_content _ _ C). rewrite (u64_small n), (u64_small i), (u64_small (len l + 1)) by lia.
    assert (Eu : u64 (i + n - 1) = i + n - 1 - 2 ^ 64) by (unfold u64; rewrite <- (Z.mod_small (i + n - 1 - 2 ^ 64) (2 ^ 64)) by lia; rewrite <- (Z_mod_plus_full (i + n - 1) (-1)); f_equal; lia).
    rewrite Eu. unfold verifyIndex, throw_if. replace ((i <? 1) || (len l + 1 <? i)) with false by lia. cbn [bind]. replace (0 <? n) with true by lia.
    replace ((i + n - 1 - 2 ^ 64 <? 1) || (len l + 1 <? i + n - 1 - 2 ^ 64)) with false by lia. cbn [bind].
    rewrite !s64_small by lia. unfold read_range. match goal with |- (if ?b then _ else _) = _ => replace b with false by lia end. reflexivity.
  - intros H1. unfold xssr, iter. cbn [debug]. rewrite (vlen_content _ _ C). rewrite (u64_small n), (u64_small i), (u64_small (len l + 1)) by lia.
    unfold verifyIndex, throw_if. destruct ((i <? 1) || (len l + 1 <? i)) eqn:E1; [reflexivity|]. cbn [bind]. assert (H2 : len l + 1 < i + n - 1 <= 2 ^ 64) by lia. replace (0 <? n) with true by lia.
    assert (Eu : u64 (i + n - 1) < 1 \/ len l + 1 < u64 (i + n - 1)).
    { unfold u64. destruct (Z.eq_dec (i + n - 1) (2 ^ 64)) as [->|]; [left; rewrite Z_mod_same_full; lia|right; rewrite Z.mod_small by lia; lia]. }
    match goal with |- context [if ?b then Throw OutOfRange else _] => replace b with true by lia end. reflexivity.
Qed.
Print Assumptions C03_every_request.

Example C03_every_request_example : let v := View [dbl 9; dbl 1; dbl 2; dbl 8] 1 3 in
  xssr Debug v 2 1 = Ok [dbl 2] /\ xssr Debug v 2 2 = Ok [dbl 2; dbl 8] /\ xssr Debug v 2 3 = Throw OutOfRange
  /\ xssr Debug v 2 (2 ^ 64 - 1) = Throw OutOfRange /\ xssr Debug v 3 (2 ^ 64 - 1) = UB.
Proof. cbn zeta. conc. Qed.

(** The full property is false: in Debug a block of 2 words returns 3. *)
Theorem C03_rejects_refuted : exists v l r,
  content v l /\ len l = 2 /\ xssr Debug v 1 3 = Ok r /\ r = [dbl 1; dbl 2; dbl 99].
Proof.
  exists (View [dbl 1; dbl 2; dbl 99] 0 2), [dbl 1; dbl 2], [dbl 1; dbl 2; dbl 99].
  split; [|vm_compute; auto]. split; [|reflexivity].
  exists [], [dbl 99]. repeat split; vm_compute; auto; discriminate.
Qed.
Print Assumptions C03_rejects_refuted.

(** For an object that owns its data the same request is undefined behaviour. *)
Theorem C03_owned_past_end_is_ub_refuted : exists l,
  len l = 2 /\ xssr Debug (own l) 1 3 = UB.
Proof. exists [dbl 1; dbl 2]. split; vm_compute; reflexivity. Qed.
Print Assumptions C03_owned_past_end_is_ub_refuted.

(** ** C05 *)

Theorem C05_array_data_round_trip : forall bm v arrays l n,
  ad_generateXSS arrays = Ok l -> has v l -> (forall a, In a arrays -> len a = n) ->
  0 <= n < 2 ^ 31 -> len arrays < 2 ^ 31 ->
  exists a, ad_make v n (len arrays) = Ok a
    /\ ad_n a = n /\ ad_m a = len arrays
    /\ (forall k x, nth_error arrays k = Some x -> ad_darray bm a (Z.of_nat k + 1) = Ok x)
    /\ (forall k zs, nth_error arrays k = Some (map dbl zs) ->
          Forall (fun z => - 2 ^ 31 <= z < 2 ^ 31) zs -> ad_iarray bm a (Z.of_nat k + 1) = Ok zs)
    /\ (forall k j c x, nth_error arrays k = Some c -> nth_error c j = Some x ->
          ad_dvalue bm a (Z.of_nat k + 1) (Z.of_nat j + 1) = Ok x)
    /\ (forall k j c z, nth_error arrays k = Some c -> nth_error c j = Some (dbl z) ->
          - 2 ^ 31 <= z < 2 ^ 31 -> ad_ivalue bm a (Z.of_nat k + 1) (Z.of_nat j + 1) = Ok z).
Proof. exact ad_round_trip. Qed.
Print Assumptions C05_array_data_round_trip.

(** The object built from arrays is the object read from the arrays in sequence. *)
Theorem C05_array_data_built : forall arrays n,
  (forall a, In a arrays -> len a = n) -> arrays <> [] ->
  0 <= n < 2 ^ 31 -> len arrays < 2 ^ 31 -> len (concat arrays) < max_words ->
  exists v, content v (concat arrays) /\ ad_of_arrays arrays = Ok (ArrayData v n (len arrays))
    /\ ad_make v n (len arrays) = Ok (ArrayData v n (len arrays)).
Proof. exact ad_of_round_trip. Qed.
Print Assumptions C05_array_data_built.

Theorem C05_array_data_rejects_ragged : forall arrays,
  (same_lengths arrays -> exists l, ad_generateXSS arrays = Ok l)
  /\ (~ same_lengths arrays -> ad_generateXSS arrays = Throw StdException).
Proof. exact ad_accepts. Qed.
Print Assumptions C05_array_data_rejects_ragged.

(** A view with fewer than n * m words is rejected, and in Debug so is every array index outside
    1..m and every element index outside 1..n. *)
Theorem C05_short_view_rejected : forall v l n m,
  content v l -> 0 <= n * m < 2 ^ 32 -> len l < n * m -> ad_make v n m = Throw StdException.
Proof. exact ad_short. Qed.
Print Assumptions C05_short_view_rejected.

Theorem C05_out_of_range_throws_in_debug : forall v n m i j, 0 <= i < 2 ^ 64 -> 0 <= j < 2 ^ 64 ->
  (~ (1 <= i <= m) ->
     ad_darray Debug (ArrayData v n m) i = Throw OutOfRange /\ ad_iarray Debug (ArrayData v n m) i = Throw OutOfRange
     /\ ad_dvalue Debug (ArrayData v n m) i j = Throw OutOfRange /\ ad_ivalue Debug (ArrayData v n m) i j = Throw OutOfRange)
  /\ (1 <= i <= m -> ~ (1 <= j <= n) ->
     ad_dvalue Debug (ArrayData v n m) i j = Throw OutOfRange /\ ad_ivalue Debug (ArrayData v n m) i j = Throw OutOfRange).
Proof.
  intros v n m i j Hi Hj. split.
  - intros H. apply ad_oob. rewrite u64_small by exact Hi. exact H.
  - intros H1 H2. apply ad_oob2; rewrite u64_small by assumption; assumption.
Qed.
Print Assumptions C05_out_of_range_throws_in_debug.

Example C05_example : exists a, ad_of_arrays [[dbl 1; dbl 2]; [dbl 3; dbl 4]; [dbl 5; dbl 6]] = Ok a
  /\ ad_darray Debug a 2 = Ok [dbl 3; dbl 4] /\ ad_ivalue Debug a 3 1 = Ok 5
  /\ ad_darray Debug a 4 = Throw OutOfRange
  /\ ad_of_arrays [[dbl 1]; [dbl 3; dbl 4]] = Throw StdException.
Proof. eexists. conc. Qed.

(** ** C06 *)

Theorem C06_column_data_round_trip : forall bm v cols l,
  cd_generateXSS cols = Ok l -> has v l ->
  exists c, cd_make v (len cols) = Ok c
    /\ (forall col, In col cols -> cd_N bm c = Ok (len col))
    /\ (forall k col, nth_error cols k = Some col -> cd_column bm c (Z.of_nat k + 1) = Ok col)
    /\ (forall k j col x, nth_error cols k = Some col -> nth_error col j = Some x ->
          cd_value bm c (Z.of_nat k + 1) (Z.of_nat j + 1) = Ok x).
Proof. exact cd_round_trip. Qed.
Print Assumptions C06_column_data_round_trip.

Theorem C06_column_data_rejects_ragged : forall cols, cols <> [] ->
  (same_lengths cols -> exists l, cd_generateXSS cols = Ok l)
  /\ (~ same_lengths cols -> cd_generateXSS cols = Throw StdException).
Proof. exact cd_accepts. Qed.
Print Assumptions C06_column_data_rejects_ragged.

(** Every non-empty proper prefix of the words of column data is rejected; an empty view is column
    data of length 0. *)
Theorem C06_truncated_rejected : forall v cols words kept lost,
  cd_generateXSS cols = Ok words -> len words < max_words -> len cols < 2 ^ 31 ->
  kept ++ lost = words -> lost <> [] -> kept <> [] -> content v kept ->
  cd_make v (len cols) = Throw StdException.
Proof. intros. eapply cd_truncated; eassumption. Qed.
Print Assumptions C06_truncated_rejected.

Theorem C06_empty_view : forall bm v nc, content v [] -> exists c, cd_make v nc = Ok c /\ cd_N bm c = Ok 0.
Proof. exact cd_empty. Qed.
Print Assumptions C06_empty_view.

Example C06_truncated_example : exists l, cd_generateXSS [[dbl 1; dbl 2]; [dbl 3; dbl 4]] = Ok (l ++ [dbl 4])
  /\ cd_make (own l) 2 = Throw StdException.
Proof. exists [dbl 2; dbl 1; dbl 2; dbl 3]. conc. Qed.

Example C06_example : exists c, cd_of_columns [[dbl 1; dbl 2]; [dbl 3; dbl 4]] = Ok c
  /\ cd_N Debug c = Ok 2 /\ cd_column Debug c 2 = Ok [dbl 3; dbl 4]
  /\ cd_value Debug c 2 1 = Ok (dbl 3).
Proof. eexists. conc. Qed.

(** ** C07 *)

Theorem C07_interpolation_data_round_trip : forall bm v nbt int l,
  id_generateXSS nbt int = Ok l -> has v l ->
  exists o, id_make v = Ok o
    /\ id_NB bm o = Ok (len nbt) /\ id_NBT bm o = Ok (map dbl nbt) /\ id_INT bm o = Ok (map dbl int).
Proof.
  intros bm v nbt int l G H. apply id_generateXSS_inv in G as (E & ->).
  destruct (id_has bm v nbt int E H) as [M S]. exact (ex_intro _ _ (conj M S)).
Qed.
Print Assumptions C07_interpolation_data_round_trip.

Theorem C07_interpolation_data_sizes : forall nbt int,
  (len int = len nbt -> exists l, id_generateXSS nbt int = Ok l)
  /\ (len int <> len nbt -> id_generateXSS nbt int = Throw StdException).
Proof.
  intros nbt int. split; intros E.
  - exact (ex_intro _ _ (id_generateXSS_ok nbt int E)).
  - exact (id_generateXSS_ragged nbt int E).
Qed.
Print Assumptions C07_interpolation_data_sizes.

(** ** C08 *)

Theorem C08_tabulated_data_round_trip : forall bm v nbt int x y l,
  td_generateXSS nbt int x y = Ok l -> has v l ->
  exists o, td_make bm v = Ok o /\ td_v o = v
    /\ td_NB bm o = Ok (len nbt) /\ td_NBT bm o = Ok (map dbl nbt) /\ td_INT bm o = Ok (map dbl int)
    /\ td_N bm o = Ok (len x) /\ td_x bm o = Ok x /\ td_y bm o = Ok y.
Proof. exact td_round_trip. Qed.
Print Assumptions C08_tabulated_data_round_trip.

Theorem C08_tabulated_data_built : forall bm nbt int x y l,
  td_generateXSS nbt int x y = Ok l -> len l < max_words ->
  exists o, td_of bm nbt int x y = Ok o /\ content (td_v o) l /\ td_shows bm o nbt int x y.
Proof. exact td_of_round_trip. Qed.
Print Assumptions C08_tabulated_data_built.

Theorem C08_tabulated_data_sizes : forall nbt int x y,
  (length nbt = length int /\ length x = length y -> exists l, td_generateXSS nbt int x y = Ok l)
  /\ (length nbt <> length int \/ length x <> length y -> td_generateXSS nbt int x y = Throw StdException).
Proof. exact td_accepts. Qed.
Print Assumptions C08_tabulated_data_sizes.

(** Debug rejects every proper prefix of the words. *)
Theorem C08_truncated_rejected : forall v nbt int x y words kept lost,
  td_generateXSS nbt int x y = Ok words -> len words < max_words ->
  kept ++ lost = words -> lost <> [] -> content v kept ->
  td_make Debug v = Throw StdException \/ td_make Debug v = Throw OutOfRange.
Proof. intros. eapply td_truncated; eassumption. Qed.
Print Assumptions C08_truncated_rejected.

Example C08_truncated_example : exists l, td_generateXSS [2; 3] [1; 2] [dbl 1; dbl 4] [dbl 7; dbl 8] = Ok (l ++ [dbl 8])
  /\ td_make Debug (own l) = Throw StdException
  /\ td_make Debug (own (firstn 5 l)) = Throw OutOfRange.
Proof. exists [dbl 2; dbl 2; dbl 3; dbl 1; dbl 2; dbl 2; dbl 1; dbl 4; dbl 7]. conc. Qed.

(** Simple Maxwellian fission and evaporation spectra: the function and U. *)
Theorem C08_evaporation_round_trip : forall bm v nbt int e t u l,
  ev_generateXSS nbt int e t u = Ok l -> has v l ->
  exists o, ev_make bm v = Ok o /\ ev_v o = v
    /\ td_shows bm (ev_tab o) nbt int e t /\ ev_U o = Ok u.
Proof. exact ev_round_trip. Qed.
Print Assumptions C08_evaporation_round_trip.

Theorem C08_general_evaporation_round_trip : forall bm v nbt int e t bins l,
  ge_generateXSS nbt int e t bins = Ok l -> has v l ->
  exists o, ge_make bm v = Ok o /\ ge_v o = v
    /\ td_shows bm (ge_tab o) nbt int e t /\ ge_NET bm o = Ok (len bins)
    /\ ge_numberBins bm o = Ok (len bins - 1) /\ ge_bins bm o = Ok bins.
Proof. exact ge_round_trip. Qed.
Print Assumptions C08_general_evaporation_round_trip.

Theorem C08_watt_round_trip : forall bm v nbta inta xa ya nbtb intb xb yb u la lb,
  td_generateXSS nbta inta xa ya = Ok la -> td_generateXSS nbtb intb xb yb = Ok lb ->
  has v (wa_generateXSS la lb u) ->
  exists o, wa_make bm v = Ok o /\ wa_v o = v
    /\ td_shows bm (wa_a o) nbta inta xa ya /\ td_shows bm (wa_b o) nbtb intb xb yb /\ wa_U o = Ok u.
Proof. exact wa_round_trip. Qed.
Print Assumptions C08_watt_round_trip.

Theorem C08_precursor_data_round_trip : forall bm v number lambda nbt int x y l,
  dp_generateXSS lambda nbt int x y = Ok l -> has v l ->
  exists o, dp_make bm v number = Ok o /\ pt_v (dp_tab o) = v /\ dp_number o = number
    /\ dp_DEC bm o = Ok lambda /\ td_shows bm (pt_tab (dp_tab o)) nbt int x y.
Proof. exact dp_round_trip. Qed.
Print Assumptions C08_precursor_data_round_trip.

Theorem C08_fission_multiplicity_round_trip : forall bm v nbt int x y l,
  tf_generateXSS nbt int x y = Ok l -> has v l ->
  exists o, tf_make bm v = Ok o /\ pt_v o = v /\ tf_LNU bm o = Ok 2
    /\ td_shows bm (pt_tab o) nbt int x y.
Proof. exact tf_round_trip. Qed.
Print Assumptions C08_fission_multiplicity_round_trip.

Theorem C08_secondary_multiplicity_round_trip : forall bm v mftype mt nbt int x y l,
  0 <= mftype < 2 ^ 31 -> 0 <= mt < 2 ^ 31 ->
  ts_generateXSS mftype mt nbt int x y = Ok l -> has v l ->
  exists o, ts_make bm v = Ok o /\ pt_v o = v /\ ts_MFTYPE bm o = Ok mftype /\ ts_MT bm o = Ok mt
    /\ td_shows bm (pt_tab o) nbt int x y.
Proof. exact ts_round_trip. Qed.
Print Assumptions C08_secondary_multiplicity_round_trip.

Example C08_example : exists l o, td_generateXSS [2; 3] [1; 2] [dbl 1; dbl 4; dbl 5] [dbl 7; dbl 8; dbl 9] = Ok l
  /\ td_make Debug (View (dbl 55 :: l ++ [dbl 66; dbl 77]) 1 (1 + len l + 2)) = Ok o
  /\ td_N Debug o = Ok 3 /\ td_y Debug o = Ok [dbl 7; dbl 8; dbl 9].
Proof. do 2 eexists. conc. Qed.

(** ** C09 *)

(** Generic: [gd] is the constructor for one data block (it also receives the
    locator); if it reads back the words c of each data block into an object
    standing in relation S to c, the block returns such an object for each
    index, and the locators are one plus the number of words before the data
    block, counted from the end of the locator list. *)
Theorem C09_locator_block_round_trip :
  forall D bm (gd : Z -> view -> outcome D) locator (cs : list (list double)) (S : list double -> D -> Prop) v l,
  (forall loc w c, In c cs -> has w c -> exists d, gd loc w = Ok d /\ S c d) ->
  bl_generateXSS locator cs = Ok l -> has v l ->
  exists o, bl_make bm gd v (vbeg v + len cs) (len cs) locator = Ok o
    /\ bl_v o = v /\ bl_n o = len cs
    /\ (forall k c, nth_error cs k = Some c -> exists d, bl_datum bm o (Z.of_nat k + 1) = Ok d /\ S c d)
    /\ (forall k c, nth_error cs k = Some c ->
          bl_LLOC bm o (Z.of_nat k + 1) = Ok (1 + len (concat (firstn k cs)))).
Proof. exact @bl_round_trip. Qed.
Print Assumptions C09_locator_block_round_trip.

(** When the block is delimited exactly, so is each data block. *)
Theorem C09_locator_block_exact :
  forall D bm (gd : Z -> view -> outcome D) locator (cs : list (list double)) (S : list double -> D -> Prop) v l,
  (forall loc w c, In c cs -> content w c -> exists d, gd loc w = Ok d /\ S c d) ->
  bl_generateXSS locator cs = Ok l -> content v l ->
  exists o, bl_make bm gd v (vbeg v + len cs) (len cs) locator = Ok o
    /\ bl_v o = v /\ bl_n o = len cs
    /\ (forall k c, nth_error cs k = Some c -> exists d, bl_datum bm o (Z.of_nat k + 1) = Ok d /\ S c d).
Proof. exact @bl_round_trip_exact. Qed.
Print Assumptions C09_locator_block_exact.

(** Constructing from data blocks is the same as reading the generated words. *)
Theorem C09_locator_block_built :
  forall D bm (gd : Z -> view -> outcome D) locator cs l,
  bl_generateXSS locator cs = Ok l -> len l < max_words ->
  bl_of bm gd locator cs = bl_make bm gd (own l) (vbeg (own l) + len cs) (len cs) locator.
Proof. exact @bl_of_make. Qed.
Print Assumptions C09_locator_block_built.

Theorem C09_out_of_range_throws_in_debug : forall D v n locator it (ds : list D) i,
  0 <= i < 2 ^ 64 -> ~ (1 <= i <= n) -> bl_datum Debug (BlockWL v n locator it ds) i = Throw OutOfRange.
Proof.
  intros D v n locator it ds i Hi H. apply bl_datum_oob. rewrite u64_small by exact Hi. lia.
Qed.
Print Assumptions C09_out_of_range_throws_in_debug.

(** SIG: cross sections. *)
Theorem C09_SIG_round_trip : forall bm v es l,
  Forall (fun e => 0 <= sig_index e < 2 ^ 31) es ->
  bl_generateXSS true (map sig_words es) = Ok l -> has v l ->
  exists o, bl_make bm (sig_generateData bm) v (vbeg v + len es) (len es) true = Ok o
    /\ bl_v o = v /\ bl_n o = len es
    /\ forall k e, nth_error es k = Some e -> exists d, bl_datum bm o (Z.of_nat k + 1) = Ok d
         /\ xs_energyIndex bm d = Ok (sig_index e) /\ xs_numberValues bm d = Ok (len (sig_values e))
         /\ xs_crossSections bm d = Ok (sig_values e).
Proof. exact sig_round_trip. Qed.
Print Assumptions C09_SIG_round_trip.

Theorem C09_SIG_entry_truncated_rejected : forall v index values kept lost,
  len values + 2 < max_words -> kept ++ lost = xs_generateXSS index values -> lost <> [] -> content v kept ->
  xs_make Debug v = Throw StdException \/ xs_make Debug v = Throw OutOfRange.
Proof. intros. eapply xs_truncated; eassumption. Qed.
Print Assumptions C09_SIG_entry_truncated_rejected.

(** The locator part must hold n words. *)
Theorem C09_short_locators_rejected : forall D bm (gd : Z -> view -> outcome D) v data n locator,
  0 <= data - vbeg v < n -> n < 2 ^ 31 -> bl_make bm gd v data n locator = Throw StdException.
Proof.
  intros D bm gd v data n locator H Hn. unfold bl_make, throw_if. rewrite s64_small by lia.
  destruct (Z.ltb_spec (data - vbeg v) n); [reflexivity|lia].
Qed.
Print Assumptions C09_short_locators_rejected.

(** SIGP: photon production cross sections and multiplicities.  The hypothesis
    that no multiplicity has MFTYPE 13 is necessary: see the refutation below. *)
Theorem C09_SIGP_round_trip : forall bm v es cs l,
  Forall sigp_fits es -> Forall (fun e => ~ sigp_mf13 e) es ->
  mapM sigp_generateXSS es = Ok cs -> bl_generateXSS true cs = Ok l -> has v l ->
  exists o, bl_make bm (sigp_generateData bm) v (vbeg v + len es) (len es) true = Ok o
    /\ bl_v o = v /\ bl_n o = len es
    /\ forall k e, nth_error es k = Some e -> exists d, bl_datum bm o (Z.of_nat k + 1) = Ok d /\ sigp_shows bm e d.
Proof. exact sigp_round_trip. Qed.
Print Assumptions C09_SIGP_round_trip.

(** The constructor of the multiplicity accepts any MFTYPE; with 13 the block
    reads it back as a cross section. *)
Theorem C09_SIGP_mftype_13_refuted : exists e cs l o w,
  sigp_fits e /\ mapM sigp_generateXSS [e] = Ok cs /\ bl_generateXSS true cs = Ok l
  /\ bl_make Debug (sigp_generateData Debug) (own l) 1 1 true = Ok o
  /\ bl_datum Debug o 1 = Ok (PPCrossSection w).
Proof.
  exists (SigpMult 13 102 [] [] [dbl 1; dbl 2] [dbl 3; dbl 4]). do 4 eexists.
  split; [cbn; lia|]. split; [reflexivity|]. split; [reflexivity|]. split; [vm_compute; reflexivity|].
  vm_compute. reflexivity.
Qed.
Print Assumptions C09_SIGP_mftype_13_refuted.

Theorem C09_SIGH_round_trip : forall bm v es cs l,
  Forall sigh_fits es ->
  mapM sigh_generateXSS es = Ok cs -> bl_generateXSS true cs = Ok l -> has v l ->
  exists o, bl_make bm (sigh_generateData bm) v (vbeg v + len es) (len es) true = Ok o
    /\ bl_v o = v /\ bl_n o = len es
    /\ forall k e, nth_error es k = Some e -> exists d, bl_datum bm o (Z.of_nat k + 1) = Ok d /\ sigh_shows bm e d.
Proof. exact sigh_round_trip. Qed.
Print Assumptions C09_SIGH_round_trip.

Example C09_example : exists l o d,
  bl_generateXSS true (map sig_words [SigEntry 1 [dbl 10; dbl 20]; SigEntry 2 [dbl 30]]) = Ok l
  /\ bl_make Debug (sig_generateData Debug) (View (dbl 5 :: l ++ [dbl 6]) 1 (1 + len l)) 3 2 true = Ok o
  /\ bl_datum Debug o 2 = Ok d /\ xs_crossSections Debug d = Ok [dbl 30]
  /\ bl_LLOC Debug o 2 = Ok 5 /\ bl_datum Debug o 3 = Throw OutOfRange.
Proof. do 3 eexists. conc. Qed.

(** ** C11 *)

(** [srt] is std::sort with the comparison on incident energies; the standard
    guarantees a sorted permutation as long as no energy is NaN. *)
Theorem C11_angular_data_round_trip : forall srt locb ds,
  sort_contract srt -> Forall (fun d => ang_energy d <> S754_nan) ds ->
  Forall ang_valid ds -> 1 <= locb -> locb + 1 + 2 * len ds + len (bodies ds) <= 2 ^ 31 ->
  exists l sorted, an_generateXSS srt locb ds = Ok l
    /\ Permutation ds sorted /\ StronglySorted energy_le sorted
    /\ forall bm v, has v l -> exists o, an_make bm locb v = Ok o /\ an_v o = v
          /\ an_NE bm o = Ok (len ds) /\ an_incidentEnergies bm o = Ok (map ang_energy sorted)
          /\ forall k d, nth_error sorted k = Some d ->
               exists a, an_datum bm o (Z.of_nat k + 1) = Ok a /\ ang_shows bm a d.
Proof.
  intros srt locb ds H1 H2 H3 H4 H5.
  destruct (an_round_trip srt locb ds H1 H2 H3 H4 H5) as (l & s & G & P & S & _ & Hh & _).
  exists l, s. split; [exact G|]. split; [exact P|]. split; [exact S|].
  intros bm v H. destruct (Hh bm v H) as (o & A & B & C & D & _ & E). exists o. auto.
Qed.
Print Assumptions C11_angular_data_round_trip.

(** A tabulated distribution cut short is rejected in Debug. *)
Theorem C11_tabulated_truncated_rejected : forall v interpolation x pdf cdf words kept lost,
  tp_generateXSS interpolation x pdf cdf [] = Ok words -> len words < max_words ->
  kept ++ lost = words -> lost <> [] -> content v kept ->
  tp_make Debug v = Throw StdException \/ tp_make Debug v = Throw OutOfRange.
Proof. intros. eapply tp_truncated; eassumption. Qed.
Print Assumptions C11_tabulated_truncated_rejected.

(** The contract is satisfiable: insertion sort meets it. *)
Example C11_sort_contract : sort_contract an_isort.
Proof. exact an_isort_contract. Qed.

Definition dhalf := S754_finite false 4503599627370496 (-53).
Example C11_example : exists l o a,
  an_generateXSS an_isort 1 [ATab (dbl 2) (tp_layout 2 [dbl (-1); dbl 1] [dhalf; dhalf] [dbl 0; dbl 1] []); AIso (dbl 1);
                             AEqui (dbl 3) (map dbl (seqZ 0 33))] = Ok l
  /\ an_make Debug 1 (View (l ++ [dbl 42]) 0 (len l)) = Ok o
  /\ an_incidentEnergies Debug o = Ok [dbl 1; dbl 2; dbl 3]
  /\ an_datum Debug o 2 = Ok (ATab (dbl 2) a) /\ tp_pdf Debug a = Ok [dhalf; dhalf].
Proof. do 3 eexists. conc. Qed.
