(** What a constructor accepts can be read (C45): constructors that view words, applied to arbitrary words, and the
    accessors of the objects they return. *)
From Coq Require Import ZArith Bool List Lia.
From Coq Require Import ZifyBool ZifyNat.
From Verif Require Import PropLemmasBasic Truncated NuBlock AtomicBlocks ElectronBlocks ThermalBlocks.
From Verif Require Indexed.
Import ListNotations.
Open Scope Z_scope.

(** * Specification *)

(** Both iterators point into the vector (or behind its last word); [inside] if they are also in the right order.
    A view a user makes with begin and end of a vector, or of part of one, is inside. *)
Definition framed (v : view) : Prop :=
  0 <= vbeg v <= len (buf v) /\ 0 <= vend v <= len (buf v) /\ len (buf v) < max_words.
Definition inside (v : view) : Prop := framed v /\ vbeg v <= vend v.
(** Iterators up to three words before the vector: where the words behind the first ones have been read *)
Definition nearby (v : view) : Prop :=
  -3 <= vbeg v <= len (buf v) /\ -3 <= vend v <= len (buf v) /\ len (buf v) < max_words.

(** An accessor returns n values: no exception, no undefined behaviour. *)
Definition returns {A} (o : outcome (list A)) (n : Z) : Prop := exists l, o = Ok l /\ len l = n.

(** A count the object shows: the accessor returns it, and P holds of it. *)
Definition shown (c : outcome Z) (P : Z -> Prop) : Prop := exists n, c = Ok n /\ P n.

(** * Basic lemmas *)

Lemma shown_of c (P : Z -> Prop) : (exists n, c = Ok n) -> (forall n, c = Ok n -> P n) -> shown c P.
Proof. intros [n E] H. exists n. auto. Qed.

Lemma bind_ok {A B} (o : outcome A) (f : A -> outcome B) b : bind o f = Ok b -> exists a, o = Ok a /\ f a = Ok b.
Proof. destruct o as [a|e|]; cbn [bind]; try discriminate. eauto. Qed.
Lemma throw_if_ok b e : throw_if b e = Ok tt -> b = false.
Proof. destruct b; [discriminate|reflexivity]. Qed.

Ltac step H x E :=
  let h := fresh in destruct (bind_ok _ _ _ H) as (x & E & h); clear H; rename h into H; cbv beta in H.
Ltac skip_ H E := let x := fresh "u" in step H x E; destruct x.

Lemma own_inside l : len l < max_words -> inside (own l).
Proof. intros H. pose proof (len_nonneg l). unfold inside, framed, own. cbn [buf vbeg vend]. lia. Qed.
Lemma has_inside v l : has v l -> inside v.
Proof. intros H. pose proof (has_bounds _ _ H). pose proof (len_nonneg l). unfold inside, framed, max_words. lia. Qed.

Lemma inside_vlen v : inside v -> vlen v = vend v - vbeg v.
Proof. intros [(H1 & H2 & H3) H4]. unfold vlen, max_words in *. apply u64_small. lia. Qed.
Lemma framed_nearby v : framed v -> nearby v.
Proof. unfold framed, nearby. lia. Qed.
Lemma nearby_s64 v : nearby v -> s64 (vend v - vbeg v) = vend v - vbeg v.
Proof. intros (H1 & H2 & H3). unfold max_words in *. apply s64_small. lia. Qed.
Lemma framed_s64 v : framed v -> s64 (vend v - vbeg v) = vend v - vbeg v.
Proof. intros (H1 & H2 & H3). unfold max_words in *. apply s64_small. lia. Qed.

Lemma verify_near v n : nearby v -> verify_at_least v n = Ok tt -> n <= vend v - vbeg v.
Proof.
  intros F H. unfold verify_at_least in H. apply throw_if_ok in H. rewrite (nearby_s64 v F) in H. lia.
Qed.
Lemma verify_ok v n : framed v -> verify_at_least v n = Ok tt -> n <= vend v - vbeg v.
Proof. intros F. apply verify_near, framed_nearby, F. Qed.

Lemma read_range_returns b l r : 0 <= l <= r -> r <= len b -> returns (read_range b l r) (r - l).
Proof.
  intros H1 H2. unfold read_range. destruct ((0 <=? l) && (l <=? r) && (r <=? len b)) eqn:E; [|lia].
  eexists. split; [reflexivity|]. unfold slice, len in *. rewrite firstn_length, skipn_length. lia.
Qed.

Lemma iter_near bm v i : nearby v -> vbeg v <= vend v -> 1 <= i <= vend v - vbeg v + 1 -> iter bm v i = Ok (vbeg v + i - 1).
Proof.
  intros (H1 & H2 & H3) H4 Hi. unfold max_words in *. unfold iter, vlen.
  rewrite (u64_small i) by lia. rewrite (u64_small (vend v - vbeg v)) by lia. rewrite u64_small by lia. rewrite s64_small by lia.
  unfold verifyIndex, throw_if. destruct (debug bm).
  - destruct ((i <? 1) || _) eqn:E; [lia|]. cbn. f_equal; lia.
  - cbn. f_equal; lia.
Qed.
Lemma iter_inside bm v i : inside v -> 1 <= i <= vend v - vbeg v + 1 -> iter bm v i = Ok (vbeg v + i - 1).
Proof. intros [F O]. apply iter_near; [exact (framed_nearby v F)|exact O]. Qed.

(** n words from the i-th on, all in the view *)
Lemma xssr_near bm v i n : nearby v -> 1 <= i -> 0 <= n -> 0 <= vbeg v + i - 1 -> i + n <= vend v - vbeg v + 1 -> returns (xssr bm v i n) n.
Proof.
  intros H Hi Hn Hp Hb. assert (B := H). destruct B as (H1 & H2 & H3). unfold max_words in H3. unfold xssr.
  assert (O : vbeg v <= vend v) by lia.
  rewrite (u64_small n) by lia. rewrite (iter_near bm v i H O) by lia. cbn [bind].
  assert (E : (if 0 <? n then r <- iter bm v (i + n - 1) ;; Ok (r + 1) else Ok (vbeg v + i - 1)) = Ok (vbeg v + i - 1 + n)).
  { destruct (Z.ltb_spec 0 n).
    - rewrite (iter_near bm v _ H O) by lia. cbn [bind]. f_equal. lia.
    - f_equal. lia. }
  rewrite E. cbn [bind]. replace n with (vbeg v + i - 1 + n - (vbeg v + i - 1)) at 2 by lia. apply read_range_returns; lia.
Qed.
Lemma xssr_inside bm v i n : inside v -> 1 <= i -> 0 <= n -> i + n <= vend v - vbeg v + 1 -> returns (xssr bm v i n) n.
Proof. intros [F O] Hi Hn Hb. apply xssr_near; try assumption; [exact (framed_nearby v F)|destruct F; lia]. Qed.

Lemma deref_inside b i : 0 <= i < len b -> exists x, deref b i = Ok x.
Proof.
  intros H. unfold deref. destruct (Z.leb_spec 0 i); [|lia]. destruct (nth_error b (Z.to_nat i)) as [x|] eqn:E; [eauto|].
  apply nth_error_None in E. unfold len in H. lia.
Qed.
Lemma xss_inside bm v i : inside v -> 1 <= i <= vend v - vbeg v -> exists x, xss bm v i = Ok x.
Proof.
  intros H Hi. pose proof (inside_vlen v H) as L. destruct H as [(H1 & H2 & H3) H4]. unfold max_words in *. unfold xss.
  rewrite (u64_small i) by lia. rewrite L. rewrite s64_small by lia.
  assert (E : (if debug bm then verifyIndex i 1 (vend v - vbeg v) else Ok tt) = Ok tt).
  { pose proof (check_verifyIndex bm i 1 (vend v - vbeg v) Hi) as C. exact C. }
  rewrite E. cbn [bind]. apply deref_inside. lia.
Qed.

Lemma to_int_range x n : to_int x = Ok n -> - 2 ^ 31 <= n < 2 ^ 31.
Proof.
  unfold to_int. destruct (sf_round x) as [z|]; [|discriminate]. unfold in_int.
  destruct ((- 2 ^ 31 <=? z) && (z <? 2 ^ 31)) eqn:E; [|discriminate]. intros H. apply Ok_inj in H. lia.
Qed.
Lemma ixss_size_range bm v i n : ixss_size bm v i = Ok n -> 0 <= n < 2 ^ 31 \/ 2 ^ 64 - 2 ^ 31 <= n < 2 ^ 64.
Proof.
  unfold ixss_size, ixss. intros H. step H k E. step E x F. apply to_int_range in E. apply Ok_inj in H. subst n.
  destruct (Z.ltb_spec k 0); [right|left]; unfold u64; Z.div_mod_to_equations; lia.
Qed.
Lemma trunc_size_range x n : trunc_to_size x = Ok n -> 0 <= n < 2 ^ 64.
Proof.
  unfold trunc_to_size. destruct (sf_trunc x) as [z|]; [|discriminate]. unfold in_size.
  destruct ((0 <=? z) && (z <? 2 ^ 64)) eqn:E; [|discriminate]. intros H. apply Ok_inj in H. lia.
Qed.
Lemma round_size_range x n : round_to_size x = Ok n -> 0 <= n < 2 ^ 64.
Proof.
  unfold round_to_size. destruct (sf_round x) as [z|]; [|discriminate]. unfold in_size.
  destruct ((0 <=? z) && (z <? 2 ^ 64)) eqn:E; [|discriminate]. intros H. apply Ok_inj in H. lia.
Qed.

Lemma xss_deref bm v i x : 0 < i < 2 ^ 63 -> xss bm v i = Ok x -> deref (buf v) (vbeg v + i - 1) = Ok x.
Proof.
  intros Hi H. unfold xss in H. rewrite (u64_small i) in H by lia. rewrite s64_small in H by lia. skip_ H E.
  replace (vbeg v + i - 1) with (vbeg v + (i - 1)) by lia. exact H.
Qed.
Lemma deref_ok b i x : deref b i = Ok x -> 0 <= i < len b.
Proof.
  unfold deref. destruct (Z.leb_spec 0 i); [|discriminate]. destruct (nth_error b (Z.to_nat i)) eqn:E; [|discriminate]. intros _.
  assert (Z.to_nat i < length b)%nat by (apply nth_error_Some; congruence). unfold len. lia.
Qed.
Lemma xss_in_buf bm v i x : 0 < i < 2 ^ 63 -> xss bm v i = Ok x -> 0 <= vbeg v + i - 1 < len (buf v).
Proof. intros Hi H. apply (deref_ok _ _ x). exact (xss_deref bm v i x Hi H). Qed.
Lemma ixss_size_in_buf bm v i n : 0 < i < 2 ^ 63 -> ixss_size bm v i = Ok n -> 0 <= vbeg v + i - 1 < len (buf v).
Proof. intros Hi H. unfold ixss_size, ixss in H. step H k E. step E x X. exact (xss_in_buf bm v i x Hi X). Qed.

(** * Cross sections, heating, polynomials, reaction numbers *)

Lemma xs_accepts bm v o n : nearby v -> xs_make bm v = Ok o -> xs_numberValues bm o = Ok n -> 2 + n < 2 ^ 32 ->
  returns (xs_crossSections bm o) n.
Proof.
  intros F M N B. unfold xs_make in M. step M k E. skip_ M V. apply Ok_inj in M. subst o. rewrite N in E. apply Ok_inj in E. subst k.
  pose proof (ixss_size_range _ _ _ _ N) as R. rewrite u32_small in V by lia. apply (verify_near v _ F) in V. pose proof (ixss_size_in_buf bm v 2 n ltac:(lia) N).
  unfold xs_crossSections. rewrite N. cbn [bind]. apply xssr_near; try assumption; lia.
Qed.

Lemma px_accepts bm v o n : nearby v -> px_make bm v = Ok o -> px_numberValues bm o = Ok n -> 3 + n < 2 ^ 32 ->
  returns (px_crossSections bm o) n.
Proof.
  intros F M N B. unfold px_make in M. step M k E. skip_ M V. apply Ok_inj in M. subst o. rewrite N in E. apply Ok_inj in E. subst k.
  assert (R : 0 <= n /\ 0 <= vbeg v + 3 - 1). { unfold px_numberValues in N. step N x X. apply trunc_size_range in N. split; [lia|]. apply (xss_in_buf bm v 3 x ltac:(lia) X). }
  rewrite u32_small in V by lia. apply (verify_near v _ F) in V.
  unfold px_crossSections. rewrite N. cbn [bind]. apply xssr_near; try assumption; lia.
Qed.

Lemma hpd_accepts bm v o n : framed v -> hpd_make bm v = Ok o -> hpd_numberValues bm o = Ok n -> 2 + 2 * n < 2 ^ 32 ->
  returns (hpd_totalProduction bm o) n /\ returns (hpd_heating bm o) n.
Proof.
  intros F M N B. unfold hpd_make in M. step M k E. skip_ M V. apply Ok_inj in M. subst o. rewrite N in E. apply Ok_inj in E. subst k.
  assert (R : 0 <= n). { unfold hpd_numberValues in N. step N x X. apply trunc_size_range in N. lia. }
  rewrite (u32_small n) in V by lia. rewrite u32_small in V by lia. apply (verify_ok v _ F) in V.
  unfold hpd_totalProduction, hpd_heating. rewrite N. cbn [bind]. split; apply xssr_inside; try lia; (split; [exact F|lia]).
Qed.

Lemma tp_accepts bm v o n : nearby v -> tp_make bm v = Ok o -> tp_numberValues bm o = Ok n -> 2 + 3 * n < 2 ^ 32 ->
  returns (tp_values bm o) n /\ returns (tp_pdf bm o) n /\ returns (tp_cdf bm o) n.
Proof.
  intros F M N B. unfold tp_make in M. step M k E. skip_ M V. apply Ok_inj in M. subst o. rewrite N in E. apply Ok_inj in E. subst k.
  pose proof (ixss_size_range _ _ _ _ N) as R. rewrite u32_small in V by lia. apply (verify_near v _ F) in V. pose proof (ixss_size_in_buf bm v 2 n ltac:(lia) N).
  unfold tp_values, tp_pdf, tp_cdf. rewrite N. cbn [bind]. repeat split; apply xssr_near; try assumption; lia.
Qed.

Lemma pf_accepts bm v o n : framed v -> pf_make bm v = Ok o -> pf_NC bm o = Ok n -> 2 + n < 2 ^ 32 ->
  returns (pf_C bm o) n.
Proof.
  intros F M N B. unfold pf_make in M. step M k E. skip_ M V. step M lnu L. skip_ M T. apply Ok_inj in M. subst o. rewrite N in E. apply Ok_inj in E. subst k.
  pose proof (ixss_size_range _ _ _ _ N) as R. rewrite (u32_small n) in V by lia. rewrite u32_small in V by lia. apply (verify_ok v _ F) in V.
  unfold pf_C. rewrite N. cbn [bind]. apply xssr_inside; try lia. split; [exact F|lia].
Qed.

Lemma u32_range n : 0 <= u32 n < 2 ^ 32.
Proof. unfold u32. apply Z.mod_pos_bound. lia. Qed.

Lemma yp_accepts bm v o n : inside v -> vbeg v < vend v -> yp_make bm v = Ok o -> yp_NYP bm o = Ok n -> 1 + n < 2 ^ 32 ->
  returns (yp_MTs bm o) n.
Proof.
  intros I P M N B. assert (F := proj1 I). unfold yp_make in M. step M k E. skip_ M V. apply Ok_inj in M. subst o. rewrite N in E. apply Ok_inj in E. subst k.
  assert (R : 0 <= n). { unfold yp_NYP in N. destruct (vempty v); [apply Ok_inj in N; lia|]. step N x X. apply Ok_inj in N. subst n. apply u32_range. }
  unfold yp_MTs. rewrite N. cbn [bind]. apply xssr_inside; try lia; try exact I. destruct (Z.eqb_spec n 0) as [-> |Hn]; [lia|].
  rewrite u32_small in V by lia. apply (verify_ok v _ F) in V. lia.
Qed.

(** * Array data *)

Lemma ad_accepts bm v n m o : framed v -> 0 <= n -> 0 <= m -> n * m < 2 ^ 32 -> m < 2 ^ 32 -> ad_make v n m = Ok o ->
  o = ArrayData v n m
  /\ (forall i, 1 <= i <= m -> returns (ad_darray bm o i) n)
  /\ (forall i j, 1 <= i <= m -> 1 <= j <= n -> exists x, ad_dvalue bm o i j = Ok x).
Proof.
  intros F Hn Hm B Bm M. unfold ad_make in M. skip_ M V. apply Ok_inj in M. subst o. split; [reflexivity|].
  unfold ad_verifySize in V. apply throw_if_ok in V. rewrite (framed_s64 v F) in V. rewrite u32_small in V by nia.
  assert (I : inside v) by (split; [exact F|nia]). assert (L : n * m <= vend v - vbeg v) by lia. destruct F as (F1 & F2 & F3). unfold max_words in F3. split.
  - intros i Hi. unfold ad_darray, ad_verifyIndex. cbn [ad_v ad_n ad_m]. rewrite (u64_small i) by lia. rewrite check_verifyIndex by lia. cbn [bind].
    apply xssr_inside; try assumption; nia.
  - intros i j Hi Hj. unfold ad_dvalue. cbn [ad_v ad_n ad_m].
    assert (C : check bm (ad_verifyIndex2 (ArrayData v n m) i j) = Ok tt).
    { unfold check, ad_verifyIndex2, ad_verifyIndex, verifyIndex, throw_if. cbn [ad_n ad_m]. destruct (debug bm); [|reflexivity].
      rewrite !u64_small by nia. destruct ((i <? 1) || (m <? i)) eqn:E1; [lia|]. cbn [bind]. destruct ((j <? 1) || (n <? j)) eqn:E2; [lia|reflexivity]. }
    rewrite C. cbn [bind]. apply xss_inside; [exact I|nia].
Qed.

(** * Columns and tables *)

(** The count is taken by truncation when the size is checked, by rounding afterwards. *)
Lemma cd_accepts bm v nc o n : inside v -> 0 <= nc -> cd_make v nc = Ok o -> cd_N bm o = Ok n ->
  (vbeg v < vend v -> exists x, deref (buf v) (vbeg v) = Ok x /\ trunc_to_size x = Ok n) ->
  vbeg v < vend v -> 1 + n * nc < 2 ^ 64 ->
  forall i, 1 <= i <= nc -> returns (cd_column bm o i) n.
Proof.
  intros I Hc M N W P B i Hi. destruct (W P) as (x & D & T). unfold cd_make in M. unfold vempty in M. destruct (Z.eqb_spec (vbeg v) (vend v)); [lia|].
  step M k E. rewrite D in E. cbn [bind] in E. rewrite T in E. apply Ok_inj in E. subst k. skip_ M V. apply Ok_inj in M. subst o.
  pose proof (trunc_size_range _ _ T) as R. unfold cd_verifySize in V. apply throw_if_ok in V. pose proof (inside_vlen v I) as L. unfold vlen in L. rewrite L in V.
  rewrite (u64_small (1 + n * nc)) in V by nia. unfold cd_column. rewrite N. cbn [bind cd_v]. assert (1 + n * nc <= vend v - vbeg v) by lia.
  apply xssr_inside; try assumption; nia.
Qed.

(** Words read through one view and another view on the same vector *)
Lemma deref_xss bm v i x : inside v -> 1 <= i <= vend v - vbeg v -> deref (buf v) (vbeg v + i - 1) = Ok x -> xss bm v i = Ok x.
Proof.
  intros I Hi D. destruct (xss_inside bm v i I Hi) as (y & Y). rewrite Y. destruct I as [(H1 & H2 & H3) H4]. unfold max_words in H3.
  pose proof (xss_deref bm v i y ltac:(lia) Y). congruence.
Qed.
Lemma word_size bm v i n : (x <- xss bm v i ;; round_to_size x) = Ok n -> exists x, xss bm v i = Ok x /\ round_to_size x = Ok n.
Proof. intros H. step H x E. eauto. Qed.
Lemma round_int x n k : round_to_size x = Ok n -> to_int x = Ok k -> k = n /\ 0 <= n < 2 ^ 31.
Proof.
  unfold round_to_size, to_int. destruct (sf_round x) as [z|]; [|discriminate]. unfold in_size, in_int.
  destruct ((0 <=? z) && (z <? 2 ^ 64)) eqn:E1; [|discriminate]. destruct ((- 2 ^ 31 <=? z) && (z <? 2 ^ 31)) eqn:E2; [|discriminate].
  intros A B. apply Ok_inj in A. apply Ok_inj in B. lia.
Qed.
Lemma round_size_int x n : round_to_size x = Ok n -> n < 2 ^ 31 -> to_int x = Ok n.
Proof.
  unfold round_to_size, to_int. destruct (sf_round x) as [z|]; [|discriminate]. unfold in_size, in_int.
  destruct ((0 <=? z) && (z <? 2 ^ 64)) eqn:E1; [|discriminate]. intros A B. apply Ok_inj in A. subst z.
  destruct ((- 2 ^ 31 <=? n) && (n <? 2 ^ 31)) eqn:E2; [reflexivity|lia].
Qed.
Lemma ixss_size_word bm v i n : ixss_size bm v i = Ok n -> exists x k, xss bm v i = Ok x /\ to_int x = Ok k /\ n = u64 k.
Proof. unfold ixss_size, ixss. intros H. step H k E. step E x X. apply Ok_inj in H. subst n. eauto. Qed.
Lemma word_ixss_size bm v i x n : xss bm v i = Ok x -> to_int x = Ok n -> 0 <= n -> ixss_size bm v i = Ok n.
Proof.
  intros X T H. unfold ixss_size, ixss. rewrite X. cbn [bind]. rewrite T. cbn [bind]. pose proof (to_int_range _ _ T). rewrite u64_small by lia. reflexivity.
Qed.

(** A view at the n + 1 words of a count and ..: its columns *)
Lemma cd_columns bm v nc n i : inside v -> cd_N bm (ColumnData v nc) = Ok n -> 0 <= n -> 1 <= i -> 1 + n * i <= vend v - vbeg v ->
  returns (cd_column bm (ColumnData v nc) i) n.
Proof. intros I N Hn Hi B. unfold cd_column. rewrite N. cbn [bind cd_v]. apply xssr_inside; try assumption; nia. Qed.

Lemma cd_N_word bm v nc x n : inside v -> vbeg v < vend v -> deref (buf v) (vbeg v) = Ok x -> to_int x = Ok n -> 0 <= n ->
  cd_N bm (ColumnData v nc) = Ok n.
Proof.
  intros I P D T Hn. unfold cd_N. cbn [cd_v]. unfold vempty. destruct (Z.eqb_spec (vbeg v) (vend v)); [lia|].
  apply (word_ixss_size bm v 1 x n); try assumption. apply deref_xss; try assumption; [lia|]. replace (vbeg v + 1 - 1) with (vbeg v) by lia. exact D.
Qed.
Lemma sub_inside v b e : inside v -> vbeg v <= b -> b <= e -> e <= vend v -> inside (sub v b e).
Proof. intros [(H1 & H2 & H3) H4] A B C. unfold inside, framed, sub. cbn [buf vbeg vend]. lia. Qed.

(** The counts and columns a table shows. *)
Definition td_readable bm (o : tabulatedData) (nb n : Z) : Prop :=
  td_NB bm o = Ok nb /\ returns (td_NBT bm o) nb /\ returns (td_INT bm o) nb
  /\ td_N bm o = Ok n /\ returns (td_x bm o) n /\ returns (td_y bm o) n.

Definition table_readable bm (t : tabulatedData) : Prop :=
  shown (td_NB bm t) (fun nb => shown (td_N bm t) (fun n => 2 + 2 * nb + 2 * n < 2 ^ 32 -> td_readable bm t nb n)).
Lemma table_of bm t : (exists nb, td_NB bm t = Ok nb) -> (exists n, td_N bm t = Ok n) ->
  (forall nb n, td_NB bm t = Ok nb -> td_N bm t = Ok n -> 2 + 2 * nb + 2 * n < 2 ^ 32 -> td_readable bm t nb n) -> table_readable bm t.
Proof. intros H1 H2 H. apply shown_of; [exact H1|]. intros nb E. apply shown_of; [exact H2|]. intros n F. exact (H nb n E F). Qed.

(** generateBlocks, once the size has been checked *)
Lemma td_blocks_accepts bm v nr ne o x1 x2 : inside v -> 0 <= nr -> 0 <= ne -> 2 + 2 * nr + 2 * ne <= vend v - vbeg v ->
  xss bm v 1 = Ok x1 -> round_to_size x1 = Ok nr -> xss bm v (1 + 2 * nr + 1) = Ok x2 -> round_to_size x2 = Ok ne ->
  td_generateBlocks bm v = Ok o ->
  td_v o = v /\ td_interp o = ColumnData (sub v (vbeg v) (vbeg v + 2 * nr + 1)) 2
  /\ td_data o = ColumnData (sub v (vbeg v + 2 * nr + 1) (vbeg v + 2 * nr + 1 + 2 * ne + 1)) 2
  /\ td_readable bm o nr ne.
Proof.
  intros I Hr He S X1 R1 X2 R2 G. assert (B := proj1 I). destruct B as (B1 & B2 & B3). unfold max_words in B3.
  unfold td_generateBlocks in G.
  pose proof (round_size_int x1 nr R1 ltac:(lia)) as T1. pose proof (round_size_int x2 ne R2 ltac:(lia)) as T2.
  rewrite (word_ixss_size bm v 1 x1 nr X1 T1 Hr) in G. cbn [bind] in G. rewrite (word_ixss_size bm v _ x2 ne X2 T2 He) in G. cbn [bind] in G.
  rewrite (adv_small (vbeg v)) in G by lia. rewrite (adv_small _ (2 * ne)) in G by lia. step G i Ei. step G d Ed. apply Ok_inj in G. subst o.
  cbn [td_v td_interp td_data]. split; [reflexivity|]. unfold id_make, cd_make in Ei, Ed. step Ei k1 E1. skip_ Ei V1. apply Ok_inj in Ei. subst i.
  step Ed k2 E2. skip_ Ed V2. apply Ok_inj in Ed. subst d. split; [reflexivity|]. split; [reflexivity|].
  assert (I1 : inside (sub v (vbeg v) (vbeg v + 2 * nr + 1))) by (apply sub_inside; try assumption; lia).
  assert (I2 : inside (sub v (vbeg v + 2 * nr + 1) (vbeg v + 2 * nr + 1 + 2 * ne + 1))) by (apply sub_inside; try assumption; lia).
  assert (N1 : td_NB bm (TabulatedData v (ColumnData (sub v (vbeg v) (vbeg v + 2 * nr + 1)) 2) (ColumnData (sub v (vbeg v + 2 * nr + 1) (vbeg v + 2 * nr + 1 + 2 * ne + 1)) 2)) = Ok nr).
  { unfold td_NB, id_NB. cbn [td_interp]. apply (cd_N_word bm _ 2 x1); try assumption; cbn [sub vbeg vend buf]; [lia|].
    pose proof (xss_deref bm v 1 x1 ltac:(lia) X1) as D. replace (vbeg v + 1 - 1) with (vbeg v) in D by lia. exact D. }
  assert (N2 : td_N bm (TabulatedData v (ColumnData (sub v (vbeg v) (vbeg v + 2 * nr + 1)) 2) (ColumnData (sub v (vbeg v + 2 * nr + 1) (vbeg v + 2 * nr + 1 + 2 * ne + 1)) 2)) = Ok ne).
  { unfold td_N. cbn [td_data]. apply (cd_N_word bm _ 2 x2); try assumption; cbn [sub vbeg vend buf]; [lia|].
    pose proof (xss_deref bm v (1 + 2 * nr + 1) x2 ltac:(lia) X2) as D. replace (vbeg v + (1 + 2 * nr + 1) - 1) with (vbeg v + 2 * nr + 1) in D by lia. exact D. }
  unfold td_readable. split; [exact N1|]. unfold td_NBT, td_INT, id_NBT, id_INT, td_x, td_y. cbn [td_interp td_data].
  unfold td_NB, id_NB in N1. cbn [td_interp] in N1. unfold td_N in N2. cbn [td_data] in N2.
  split; [|split; [|split; [exact N2|split]]]; apply cd_columns; try assumption; cbn [sub vbeg vend]; lia.
Qed.

(** The counts, whatever the size *)
Lemma cd_N_counts bm v nc x k n : vbeg v <> vend v -> deref (buf v) (vbeg v) = Ok x -> to_int x = Ok k -> 0 <= k -> cd_N bm (ColumnData v nc) = Ok n -> n = k.
Proof.
  intros P D T Hk N. unfold cd_N in N. cbn [cd_v] in N. unfold vempty in N. destruct (Z.eqb_spec (vbeg v) (vend v)); [lia|].
  destruct (ixss_size_word _ _ _ _ N) as (y & j & Y & J & ->). pose proof (xss_deref bm v 1 y ltac:(lia) Y) as D'.
  replace (vbeg v + 1 - 1) with (vbeg v) in D' by lia. assert (y = x) by congruence. subst y. assert (j = k) by congruence. subst j.
  pose proof (to_int_range _ _ T). apply u64_small. lia.
Qed.
Lemma cd_N_word_counts bm v nc x k n : vbeg v <> vend v -> deref (buf v) (vbeg v) = Ok x -> to_int x = Ok k -> cd_N bm (ColumnData v nc) = Ok n -> n = u64 k.
Proof.
  intros P D T N. unfold cd_N in N. cbn [cd_v] in N. unfold vempty in N. destruct (Z.eqb_spec (vbeg v) (vend v)); [lia|].
  destruct (ixss_size_word _ _ _ _ N) as (y & j & Y & J & ->). pose proof (xss_deref bm v 1 y ltac:(lia) Y) as D'.
  replace (vbeg v + 1 - 1) with (vbeg v) in D' by lia. assert (y = x) by congruence. subst y. congruence.
Qed.
Lemma td_blocks_counts bm v o : td_generateBlocks bm v = Ok o ->
  exists x1 x2 k1 k2, xss bm v 1 = Ok x1 /\ to_int x1 = Ok k1 /\ xss bm v (1 + 2 * u64 k1 + 1) = Ok x2 /\ to_int x2 = Ok k2
    /\ (0 <= k1 -> 0 <= k2 -> (forall nb, td_NB bm o = Ok nb -> nb = k1) /\ (forall n, td_N bm o = Ok n -> n = k2)).
Proof.
  intros G. unfold td_generateBlocks in G. step G nr E1. step G ne E2.
  destruct (ixss_size_word _ _ _ _ E1) as (x1 & k1 & X1 & T1 & ->). destruct (ixss_size_word _ _ _ _ E2) as (x2 & k2 & X2 & T2 & ->).
  exists x1, x2, k1, k2. repeat split; try assumption; intros m Hm.
  all: pose proof (to_int_range _ _ T1); pose proof (to_int_range _ _ T2); rewrite (u64_small k1), ?(u64_small k2) in * by lia.
  all: step G i Ei; step G d Ed; apply Ok_inj in G; subst o; unfold td_NB, id_NB, td_N in Hm; cbn [td_interp td_data] in Hm.
  all: unfold id_make, cd_make in Ei, Ed; step Ei j1 F1; skip_ Ei V1; apply Ok_inj in Ei; subst i; step Ed j2 F2; skip_ Ed V2; apply Ok_inj in Ed; subst d.
  - apply (cd_N_counts bm _ 2 x1 k1) in Hm; try assumption; cbn [sub vbeg vend buf]; rewrite ?adv_small by lia; [lia|].
    pose proof (xss_deref bm v 1 x1 ltac:(lia) X1) as D. replace (vbeg v + 1 - 1) with (vbeg v) in D by lia. exact D.
  - apply (cd_N_counts bm _ 2 x2 k2) in Hm; try assumption; cbn [sub vbeg vend buf]; rewrite ?adv_small by lia; [lia|].
    pose proof (xss_deref bm v (1 + 2 * k1 + 1) x2 ltac:(lia) X2) as D. replace (vbeg v + (1 + 2 * k1 + 1) - 1) with (vbeg v + 2 * k1 + 1) in D by lia. exact D.
Qed.

(** TabulatedData: what td_make accepts, if the size the counts ask for fits an unsigned int *)
Lemma td_accepts bm v o nb n : nearby v -> td_make bm v = Ok o -> td_NB bm o = Ok nb -> td_N bm o = Ok n -> 2 + 2 * nb + 2 * n < 2 ^ 32 ->
  td_readable bm o nb n /\ td_v o = v /\ 2 + 2 * nb + 2 * n <= vend v - vbeg v.
Proof.
  intros F M NB N B. unfold td_make in M.
  step M nr E1. destruct (word_size _ _ _ _ E1) as (x1 & X1 & R1). step M ne E2. destruct (word_size _ _ _ _ E2) as (x2 & X2 & R2). skip_ M V.
  destruct (td_blocks_counts bm v o M) as (y1 & y2 & k1 & k2 & Y1 & T1 & Y2 & T2 & C). assert (y1 = x1) by congruence. subst y1.
  destruct (round_int _ _ _ R1 T1) as [-> P1]. rewrite (u64_small nr) in Y2 by lia. assert (y2 = x2) by congruence. subst y2.
  destruct (round_int _ _ _ R2 T2) as [-> P2]. destruct (C ltac:(lia) ltac:(lia)) as [C1 C2]. pose proof (C1 _ NB). pose proof (C2 _ N). subst nr ne.
  rewrite u32_small in V by lia. apply (verify_near v _ F) in V. pose proof (xss_in_buf bm v 1 x1 ltac:(lia) X1) as P0. assert (I : inside v) by (destruct F as (F1 & F2 & F3); unfold inside, framed; lia).
  destruct (td_blocks_accepts bm v nb n o x1 x2 I ltac:(lia) ltac:(lia) V X1 R1 X2 R2 M) as (A1 & _ & _ & A2). split; [exact A2|]. split; [exact A1|exact V].
Qed.

Lemma cd_N_some bm v nc x k : - 2 ^ 63 < vend v - vbeg v < 2 ^ 63 -> deref (buf v) (vbeg v) = Ok x -> to_int x = Ok k -> exists n, cd_N bm (ColumnData v nc) = Ok n.
Proof.
  intros Bd D T. unfold cd_N. cbn [cd_v]. unfold vempty. destruct (Z.eqb_spec (vbeg v) (vend v)) as [|Ne]; [eauto|].
  unfold ixss_size, ixss, xss. rewrite (u64_small 1) by lia. replace (vbeg v + s64 (1 - 1)) with (vbeg v) by (change (s64 (1 - 1)) with 0; lia).
  assert (V : (if debug bm then verifyIndex 1 1 (vlen v) else Ok tt) = Ok tt).
  { destruct (debug bm); [|reflexivity]. unfold verifyIndex, throw_if, vlen. assert (1 <= u64 (vend v - vbeg v)) by (unfold u64; Z.div_mod_to_equations; lia).
    destruct ((1 <? 1) || _) eqn:E; [lia|reflexivity]. }
  rewrite V. cbn [bind]. rewrite D. cbn [bind]. rewrite T. cbn [bind]. eauto.
Qed.
Lemma td_counted bm v o : td_make bm v = Ok o -> (exists nb, td_NB bm o = Ok nb) /\ (exists n, td_N bm o = Ok n).
Proof.
  intros M. unfold td_make in M.
  step M nr E1. destruct (word_size _ _ _ _ E1) as (x1 & X1 & R1). step M ne E2. destruct (word_size _ _ _ _ E2) as (x2 & X2 & R2). skip_ M V.
  unfold td_generateBlocks in M. step M k1 K1. step M k2 K2. destruct (ixss_size_word _ _ _ _ K1) as (y1 & j1 & Y1 & T1 & ->).
  assert (y1 = x1) by congruence. subst y1. destruct (round_int _ _ _ R1 T1) as [-> P1]. rewrite (u64_small nr) in * by lia.
  destruct (ixss_size_word _ _ _ _ K2) as (y2 & j2 & Y2 & T2 & ->). assert (y2 = x2) by congruence. subst y2. destruct (round_int _ _ _ R2 T2) as [-> P2].
  rewrite (u64_small ne) in * by lia. rewrite (adv_small (vbeg v)) in M by lia. rewrite (adv_small _ (2 * ne)) in M by lia.
  pose proof (xss_deref bm v 1 x1 ltac:(lia) X1) as D1. replace (vbeg v + 1 - 1) with (vbeg v) in D1 by lia.
  pose proof (xss_deref bm v (1 + 2 * nr + 1) x2 ltac:(lia) X2) as D2. replace (vbeg v + (1 + 2 * nr + 1) - 1) with (vbeg v + 2 * nr + 1) in D2 by lia.
  step M i Ei. step M d Ed. apply Ok_inj in M. subst o. unfold id_make, cd_make in Ei, Ed.
  step Ei i1 F1. skip_ Ei V1. apply Ok_inj in Ei. subst i. step Ed i2 F2. skip_ Ed V2. apply Ok_inj in Ed. subst d.
  unfold td_NB, id_NB, td_N. cbn [td_interp td_data].
  split; [apply (cd_N_some bm _ 2 x1 nr)|apply (cd_N_some bm _ 2 x2 ne)]; cbn [sub vbeg vend buf]; try assumption; lia.
Qed.
Lemma td_table bm v o : nearby v -> td_make bm v = Ok o -> table_readable bm o.
Proof.
  intros F M. destruct (td_counted bm v o M) as [H1 H2]. apply table_of; try assumption. intros nb n A B C. exact (proj1 (td_accepts bm v o nb n F M A B C)).
Qed.

(** * Tables behind fixed words, evaporation and Watt spectra *)

Lemma td_make_first bm v o : td_make bm v = Ok o -> 0 <= vbeg v < len (buf v).
Proof.
  intros M. unfold td_make in M. step M nr E1. destruct (word_size _ _ _ _ E1) as (x1 & X1 & R1).
  pose proof (xss_in_buf bm v 1 x1 ltac:(lia) X1). lia.
Qed.

Lemma pt_accepts bm k v o nb n : nearby v -> pt_generateBlocks bm k v = Ok o -> td_NB bm (pt_tab o) = Ok nb -> td_N bm (pt_tab o) = Ok n -> 2 + 2 * nb + 2 * n < 2 ^ 32 ->
  td_readable bm (pt_tab o) nb n /\ pt_v o = v /\ 2 + 2 * nb + 2 * n <= vend v - (vbeg v + k).
Proof.
  intros F M NB N B. unfold pt_generateBlocks in M. step M t E. apply Ok_inj in M. subst o. cbn [pt_tab pt_v] in *.
  pose proof (td_make_first _ _ _ E) as P. cbn [sub vbeg buf] in P.
  assert (F' : nearby (sub v (vbeg v + k) (vend v))) by (unfold nearby in *; cbn [sub vbeg vend buf]; lia).
  destruct (td_accepts bm _ t nb n F' E NB N B) as (A1 & A2 & A3). cbn [sub vbeg vend] in A3. auto.
Qed.
Lemma pt_table bm k v o : nearby v -> pt_generateBlocks bm k v = Ok o -> table_readable bm (pt_tab o).
Proof.
  intros F M. pose proof M as M'. unfold pt_generateBlocks in M'. step M' t E. apply Ok_inj in M'. subst o. cbn [pt_tab].
  destruct (td_counted bm _ t E) as [H1 H2]. apply table_of; try assumption. intros nb n A B C. exact (proj1 (pt_accepts bm k v _ nb n F M A B C)).
Qed.

(** The table at the beginning of a spectrum: its counts are those of the spectrum; its columns can be read if the size
    has been checked *)
Lemma table_counts bm v b e nr ne t nb n x1 x2 : deref (buf v) b = Ok x1 -> to_int x1 = Ok nr ->
  (0 <= nr -> deref (buf v) (b + 2 * nr + 1) = Ok x2) -> to_int x2 = Ok ne ->
  td_make bm (sub v b e) = Ok t -> td_NB bm t = Ok nb -> td_N bm t = Ok n -> nb = nr /\ n = ne /\ 0 <= nr /\ 0 <= ne.
Proof.
  intros D1 T1 D2 T2 M NB N. set (w := sub v b e) in *. pose proof (to_int_range _ _ T1) as B1. pose proof (to_int_range _ _ T2) as B2.
  unfold td_make in M. step M r1 E1. destruct (word_size _ _ _ _ E1) as (z1 & Z1 & R1). step M r2 E2. destruct (word_size _ _ _ _ E2) as (z2 & Z2 & R2). skip_ M V.
  pose proof (xss_deref bm w 1 z1 ltac:(lia) Z1) as D1'. change (buf w) with (buf v) in D1'. change (vbeg w) with b in D1'. replace (b + 1 - 1) with b in D1' by lia.
  assert (z1 = x1) by congruence. subst z1. destruct (round_int _ _ _ R1 T1) as [<- P1]. specialize (D2 ltac:(lia)).
  pose proof (xss_deref bm w (1 + 2 * nr + 1) z2 ltac:(lia) Z2) as D2'. change (buf w) with (buf v) in D2'. change (vbeg w) with b in D2'.
  replace (b + (1 + 2 * nr + 1) - 1) with (b + 2 * nr + 1) in D2' by lia.
  assert (z2 = x2) by congruence. subst z2. destruct (round_int _ _ _ R2 T2) as [<- P2].
  destruct (td_blocks_counts bm w t M) as (y1 & y2 & k1 & k2 & Y1 & J1 & Y2 & J2 & C). assert (y1 = x1) by congruence. subst y1. assert (k1 = nr) by congruence. subst k1.
  rewrite (u64_small nr) in Y2 by lia. assert (y2 = x2) by congruence. subst y2. assert (k2 = ne) by congruence. subst k2.
  destruct (C ltac:(lia) ltac:(lia)) as [C1 C2]. split; [exact (C1 _ NB)|]. split; [exact (C2 _ N)|]. lia.
Qed.
Lemma spectrum_counts bm v e nr ne t nb n x1 x2 : xss bm v 1 = Ok x1 -> to_int x1 = Ok nr -> xss bm v (1 + 2 * u64 nr + 1) = Ok x2 -> to_int x2 = Ok ne ->
  td_make bm (sub v (vbeg v) e) = Ok t -> td_NB bm t = Ok nb -> td_N bm t = Ok n -> nb = nr /\ n = ne /\ 0 <= nr /\ 0 <= ne.
Proof.
  intros X1 T1 X2 T2. pose proof (to_int_range _ _ T1) as B1. apply table_counts with (x1 := x1) (x2 := x2); try assumption.
  - pose proof (xss_deref bm v 1 x1 ltac:(lia) X1) as D1. rewrite <- D1. f_equal. lia.
  - intros P. rewrite (u64_small nr) in X2 by lia. pose proof (xss_deref bm v (1 + 2 * nr + 1) x2 ltac:(lia) X2) as D2. rewrite <- D2. f_equal. lia.
Qed.
Lemma table_inside bm v b nb n t : inside v -> vbeg v <= b -> 0 <= nb -> 0 <= n -> b + 2 + 2 * nb + 2 * n <= vend v ->
  td_make bm (sub v b (b + 2 * nb + 2 * n + 2)) = Ok t -> td_NB bm t = Ok nb -> td_N bm t = Ok n ->
  td_readable bm t nb n /\ td_v t = sub v b (b + 2 * nb + 2 * n + 2).
Proof.
  intros I Hb H1 H2 L M NB N. assert (Bf := proj1 I). destruct Bf as (B1 & B2 & B3). unfold max_words in B3.
  assert (Iw : inside (sub v b (b + 2 * nb + 2 * n + 2))) by (apply sub_inside; try assumption; lia).
  destruct (td_accepts bm _ t nb n (framed_nearby _ (proj1 Iw)) M NB N) as (A1 & A2 & _); [lia|]. auto.
Qed.
Lemma spectrum_table bm v nb n t : inside v -> 0 <= nb -> 0 <= n -> 2 + 2 * nb + 2 * n <= vend v - vbeg v ->
  td_make bm (sub v (vbeg v) (vbeg v + 2 * nb + 2 * n + 2)) = Ok t -> td_NB bm t = Ok nb -> td_N bm t = Ok n ->
  td_readable bm t nb n /\ td_v t = sub v (vbeg v) (vbeg v + 2 * nb + 2 * n + 2).
Proof. intros I H1 H2 L. apply table_inside; try assumption; lia. Qed.

Lemma ev_accepts bm v o nb n : framed v -> ev_make bm v = Ok o -> td_NB bm (ev_tab o) = Ok nb -> td_N bm (ev_tab o) = Ok n -> 3 + 2 * nb + 2 * n < 2 ^ 32 ->
  td_readable bm (ev_tab o) nb n /\ exists u, ev_U o = Ok u.
Proof.
  intros F M NB N B. assert (Bf := F). destruct Bf as (B1 & B2 & B3). unfold max_words in B3. unfold ev_make in M.
  step M nr E1. destruct (word_size _ _ _ _ E1) as (x1 & X1 & R1). step M ne E2. destruct (word_size _ _ _ _ E2) as (x2 & X2 & R2). skip_ M V.
  unfold ev_generateBlocks in M. step M k1 K1. destruct (ixss_size_word _ _ _ _ K1) as (y1 & j1 & Y1 & T1 & ->). assert (y1 = x1) by congruence. subst y1.
  destruct (round_int _ _ _ R1 T1) as [-> P1]. rewrite (u64_small nr) in M by lia. step M k2 K2. destruct (ixss_size_word _ _ _ _ K2) as (y2 & j2 & Y2 & T2 & ->).
  assert (y2 = x2) by congruence. subst y2. destruct (round_int _ _ _ R2 T2) as [-> P2]. rewrite (u64_small ne) in M by lia.
  step M t Et. apply Ok_inj in M. subst o. cbn [ev_tab] in *. rewrite (adv_small (vbeg v)) in Et by lia. rewrite adv_small in Et by lia.
  assert (X2' : xss bm v (1 + 2 * u64 nr + 1) = Ok x2) by (rewrite (u64_small nr) by lia; exact X2).
  destruct (spectrum_counts bm v _ nr ne t nb n x1 x2 X1 T1 X2' T2 Et NB N) as (-> & -> & _).
  rewrite u32_small in V by lia. apply (verify_ok v _ F) in V. assert (I : inside v) by (split; [exact F|lia]).
  destruct (spectrum_table bm v nr ne t I ltac:(lia) ltac:(lia) ltac:(lia) Et NB N) as [A1 A2]. split; [exact A1|].
  unfold ev_U. cbn [ev_tab]. rewrite A2. cbn [sub buf vend]. apply deref_inside. lia.
Qed.
Definition ev_readable bm (d : evaporation) : Prop :=
  shown (td_NB bm (ev_tab d)) (fun nb => shown (td_N bm (ev_tab d)) (fun n => 3 + 2 * nb + 2 * n < 2 ^ 32 ->
    td_readable bm (ev_tab d) nb n /\ exists u, ev_U d = Ok u)).
Lemma ev_shown bm v o : framed v -> ev_make bm v = Ok o -> ev_readable bm o.
Proof.
  intros F M. pose proof M as M'. unfold ev_make in M'. step M' nr E1. step M' ne E2. skip_ M' V. unfold ev_generateBlocks in M'. step M' k1 K1. step M' k2 K2. step M' t T.
  apply Ok_inj in M'. subst o. destruct (td_counted bm _ t T) as [H1 H2].
  apply shown_of; [exact H1|]. intros nb A. apply shown_of; [exact H2|]. intros n B C. exact (ev_accepts bm v _ nb n F M A B C).
Qed.

Lemma ge_accepts bm v o nb n m : framed v -> ge_make bm v = Ok o -> td_NB bm (ge_tab o) = Ok nb -> td_N bm (ge_tab o) = Ok n -> cd_N bm (ge_binsd o) = Ok m ->
  3 + 2 * nb + 2 * n + m < 2 ^ 32 ->
  td_readable bm (ge_tab o) nb n /\ returns (ge_bins bm o) m.
Proof.
  intros F M NB N NM B. assert (Bf := F). destruct Bf as (B1 & B2 & B3). unfold max_words in B3. unfold ge_make in M.
  step M nr E1. destruct (ixss_size_word _ _ _ _ E1) as (x1 & j1 & X1 & T1 & ->). step M ne E2. destruct (ixss_size_word _ _ _ _ E2) as (x2 & j2 & X2 & T2 & ->).
  step M nn E3. skip_ M V.
  unfold ge_generateBlocks in M. rewrite E1 in M. cbn [bind] in M. rewrite E2 in M. cbn [bind] in M. step M t Et. step M b Eb. apply Ok_inj in M. subst o. cbn [ge_tab ge_binsd] in *.
  destruct (spectrum_counts bm v _ j1 j2 t nb n x1 x2 X1 T1 X2 T2 Et NB N) as (-> & -> & P1 & P2).
  pose proof (to_int_range _ _ T1) as Q1. pose proof (to_int_range _ _ T2) as Q2. rewrite (u64_small j1), (u64_small j2) in * by lia.
  rewrite (adv_small (vbeg v)) in * by lia. rewrite (adv_small _ (2 * j2)) in * by lia.
  unfold cd_make in Eb. step Eb c Ec. skip_ Eb W. apply Ok_inj in Eb. subst b.
  pose proof (ixss_size_range _ _ _ _ E3) as R3. destruct (ixss_size_word _ _ _ _ E3) as (x3 & j3 & X3 & T3 & Q3).
  pose proof (to_int_range _ _ T3) as Q3'. pose proof (xss_deref bm v (1 + 2 * j1 + 1 + 2 * j2 + 1) x3 ltac:(lia) X3) as D3. pose proof (deref_ok _ _ _ D3) as L3.
  (* the count of the bins *)
  set (w := sub v (vbeg v + 2 * j1 + 2 * j2 + 2) (vend v)) in *.
  destruct (Z.eqb_spec (vbeg w) (vend w)) as [Ee|Ne].
  - (* nothing behind the table: the count word is not in the view *)
    assert (m = 0). { unfold cd_N, vempty in NM. cbn [cd_v] in NM. rewrite (proj2 (Z.eqb_eq _ _) Ee) in NM. apply Ok_inj in NM. lia. }
    subst m. unfold w in Ee. cbn [sub vbeg vend] in Ee. assert (I : inside v) by (split; [exact F|lia]).
    destruct (spectrum_table bm v j1 j2 t I P1 P2 ltac:(lia) Et NB N) as [A1 A2]. split; [exact A1|].
    unfold ge_bins, cd_column. cbn [ge_binsd]. rewrite NM. cbn [bind cd_v]. destruct bm.
    + exfalso. unfold xss in X3. rewrite u64_small in X3 by lia. cbn [debug] in X3. skip_ X3 Z3. unfold verifyIndex in Z3. apply throw_if_ok in Z3.
      rewrite (inside_vlen v I) in Z3. lia.
    + unfold xssr, iter. cbn [debug bind]. change (u64 0) with 0. cbn match. change (u64 (2 + (1 - 1) * 0)) with 2. cbn [bind].
      change (s64 (2 - 1)) with 1. change (0 <? 0) with false. cbn [bind].
      pose proof (read_range_returns (buf w) (vbeg w + 1) (vbeg w + 1)) as RR. rewrite Z.sub_diag in RR. apply RR; unfold w; cbn [sub vbeg buf]; lia.
  - assert (D3' : deref (buf w) (vbeg w) = Ok x3) by (unfold w; cbn [sub vbeg buf]; rewrite <- D3; f_equal; lia).
    pose proof (cd_N_word_counts bm w 1 x3 j3 m Ne D3' T3 NM) as Em. subst m. subst nn.
    assert (P3 : 0 <= j3). { destruct (Z.ltb_spec j3 0); [|lia]. unfold u64 in B. Z.div_mod_to_equations; lia. }
    rewrite (u64_small j3) in * by lia. rewrite u32_small in V by lia. apply (verify_ok v _ F) in V. assert (I : inside v) by (split; [exact F|lia]).
    destruct (spectrum_table bm v j1 j2 t I P1 P2 ltac:(lia) Et NB N) as [A1 A2]. split; [exact A1|].
    unfold ge_bins. cbn [ge_binsd]. apply cd_columns; try assumption; [apply sub_inside; try assumption; lia|lia|unfold w; cbn [sub vbeg vend]; lia].
Qed.
Definition ge_readable bm (d : generalEvaporation) : Prop :=
  shown (td_NB bm (ge_tab d)) (fun nb => shown (td_N bm (ge_tab d)) (fun n => shown (cd_N bm (ge_binsd d)) (fun m => 3 + 2 * nb + 2 * n + m < 2 ^ 32 ->
    td_readable bm (ge_tab d) nb n /\ returns (ge_bins bm d) m))).
Lemma ge_shown bm v o : framed v -> ge_make bm v = Ok o -> ge_readable bm o.
Proof.
  intros F M. pose proof M as M'. unfold ge_make in M'. step M' nr E1. step M' ne E2. step M' nn E3. skip_ M' V. unfold ge_generateBlocks in M'.
  rewrite E1 in M'. cbn [bind] in M'. rewrite E2 in M'. cbn [bind] in M'. step M' t T. step M' b Bb. apply Ok_inj in M'. subst o.
  destruct (td_counted bm _ t T) as [H1 H2].
  assert (H3 : exists m, cd_N bm b = Ok m).
  { unfold cd_make in Bb. step Bb j J. skip_ Bb V2. apply Ok_inj in Bb. subst b. destruct (ixss_size_word _ _ _ _ E3) as (x & k & X & K & _).
    destruct (ixss_size_word _ _ _ _ E1) as (x1 & j1 & X1 & T1 & ->). destruct (ixss_size_word _ _ _ _ E2) as (x2 & j2 & X2 & T2 & ->).
    destruct H1 as [nb NB]. destruct H2 as [n N]. destruct (spectrum_counts bm v _ j1 j2 t nb n x1 x2 X1 T1 X2 T2 T NB N) as (-> & -> & P1 & P2).
    pose proof (to_int_range _ _ T1) as Q1. pose proof (to_int_range _ _ T2) as Q2. rewrite (u64_small j1), (u64_small j2) in * by lia.
    rewrite (adv_small (vbeg v)) in * by lia. rewrite (adv_small _ (2 * j2)) in * by lia.
    pose proof (xss_deref bm v (1 + 2 * j1 + 1 + 2 * j2 + 1) x ltac:(lia) X) as D. replace (vbeg v + (1 + 2 * j1 + 1 + 2 * j2 + 1) - 1) with (vbeg v + 2 * j1 + 2 * j2 + 2) in D by lia.
    destruct F as (F1 & F2 & F3). unfold max_words in F3. pose proof (deref_ok _ _ _ D). apply (cd_N_some bm _ 1 x k); cbn [sub vbeg vend buf]; try assumption; lia. }
  apply shown_of; [exact H1|]. intros nb A. apply shown_of; [exact H2|]. intros n B. apply shown_of; [exact H3|]. intros m C D. exact (ge_accepts bm v _ nb n m F M A B C D).
Qed.

Lemma wa_accepts bm v o na n nb m : framed v -> wa_make bm v = Ok o -> td_NB bm (wa_a o) = Ok na -> td_N bm (wa_a o) = Ok n ->
  td_NB bm (wa_b o) = Ok nb -> td_N bm (wa_b o) = Ok m -> 5 + 2 * na + 2 * n + 2 * nb + 2 * m < 2 ^ 32 ->
  td_readable bm (wa_a o) na n /\ td_readable bm (wa_b o) nb m /\ exists u, wa_U o = Ok u.
Proof.
  intros F M NA N NB Nm B. assert (Bf := F). destruct Bf as (B1 & B2 & B3). unfold max_words in B3. unfold wa_make in M.
  step M nra E1. destruct (ixss_size_word _ _ _ _ E1) as (x1 & j1 & X1 & T1 & ->). step M nea E2. destruct (ixss_size_word _ _ _ _ E2) as (x2 & j2 & X2 & T2 & ->).
  step M nrb E3. step M neb E4. skip_ M V.
  unfold wa_generateBlocks in M. rewrite E1 in M. cbn [bind] in M. rewrite E2 in M. cbn [bind] in M.
  pose proof (to_int_range _ _ T1) as Q1. pose proof (to_int_range _ _ T2) as Q2.
  step M nrb' E3'. step M neb' E4'. step M a Ea. step M b Eb. apply Ok_inj in M. subst o. cbn [wa_a wa_b] in *.
  destruct (spectrum_counts bm v _ j1 j2 a na n x1 x2 X1 T1 X2 T2 Ea NA N) as (-> & -> & P1 & P2).
  rewrite (u64_small j1), (u64_small j2) in * by lia. rewrite (adv_small (vbeg v)) in * by lia. rewrite (adv_small _ (2 * j2)) in * by lia.
  replace (vbeg v + 2 * j1 + 2 * j2 + 2 - vbeg v) with (2 + 2 * j1 + 2 * j2) in * by lia. rewrite (u64_small (2 + 2 * j1 + 2 * j2)) in * by lia.
  rewrite E3 in E3'. apply Ok_inj in E3'. subst nrb'. rewrite E4 in E4'. apply Ok_inj in E4'. subst neb'.
  destruct (ixss_size_word _ _ _ _ E3) as (x3 & j3 & X3 & T3 & ->). destruct (ixss_size_word _ _ _ _ E4) as (x4 & j4 & X4 & T4 & ->).
  pose proof (to_int_range _ _ T3) as Q3. pose proof (to_int_range _ _ T4) as Q4.
  set (p := vbeg v + 2 * j1 + 2 * j2 + 2) in *. set (u := adv (adv p (2 * u64 j3)) (2 * u64 j4) + 2) in *.
  assert (D3 : deref (buf v) p = Ok x3).
  { pose proof (xss_deref bm v (2 + 2 * j1 + 2 * j2 + 1) x3 ltac:(lia) X3) as D. rewrite <- D. f_equal. unfold p. lia. }
  assert (D4 : 0 <= j3 -> deref (buf v) (p + 2 * j3 + 1) = Ok x4).
  { intros P3. rewrite (u64_small j3) in X4 by lia. pose proof (xss_deref bm v (2 + 2 * j1 + 2 * j2 + 1 + 2 * j3 + 1) x4 ltac:(lia) X4) as D. rewrite <- D. f_equal. unfold p. lia. }
  destruct (table_counts bm v p u j3 j4 b nb m x3 x4 D3 T3 D4 T4 Eb NB Nm) as (-> & -> & P3 & P4).
  rewrite (u64_small j3), (u64_small j4) in * by lia. rewrite u32_small in V by lia. apply (verify_ok v _ F) in V. assert (I : inside v) by (split; [exact F|lia]).
  unfold u in Eb. rewrite (u64_small j3), (u64_small j4) in Eb by lia. rewrite (adv_small p) in Eb by lia. rewrite adv_small in Eb by lia.
  destruct (spectrum_table bm v j1 j2 a I P1 P2 ltac:(lia) Ea NA N) as [A1 A2].
  destruct (table_inside bm v p j3 j4 b I ltac:(unfold p; lia) P3 P4 ltac:(unfold p; lia) Eb NB Nm) as [A3 A4].
  split; [exact A1|]. split; [exact A3|]. unfold wa_U. cbn [wa_b]. rewrite A4. cbn [sub buf vend]. apply deref_inside. unfold p. lia.
Qed.
Definition wa_readable bm (d : watt) : Prop :=
  shown (td_NB bm (wa_a d)) (fun na => shown (td_N bm (wa_a d)) (fun n => shown (td_NB bm (wa_b d)) (fun nb => shown (td_N bm (wa_b d)) (fun m =>
    5 + 2 * na + 2 * n + 2 * nb + 2 * m < 2 ^ 32 -> td_readable bm (wa_a d) na n /\ td_readable bm (wa_b d) nb m /\ exists u, wa_U d = Ok u)))).
Lemma wa_shown bm v o : framed v -> wa_make bm v = Ok o -> wa_readable bm o.
Proof.
  intros F M. pose proof M as M'. unfold wa_make in M'. step M' nra E1. step M' nea E2. step M' nrb E3. step M' neb E4. skip_ M' V. unfold wa_generateBlocks in M'.
  step M' k1 K1. step M' k2 K2. step M' k3 K3. step M' k4 K4. step M' a A. step M' b B. apply Ok_inj in M'. subst o.
  destruct (td_counted bm _ a A) as [H1 H2]. destruct (td_counted bm _ b B) as [H3 H4].
  apply shown_of; [exact H1|]. intros na Ca. apply shown_of; [exact H2|]. intros n Cn. apply shown_of; [exact H3|]. intros nb Cb. apply shown_of; [exact H4|].
  intros m Cm D. exact (wa_accepts bm v _ na n nb m F M Ca Cn Cb Cm D).
Qed.

(** * Fission multiplicities *)

Definition nu_readable bm (d : nu_data) : Prop :=
  match d with
  | NuPoly v => shown (pf_NC bm v) (fun n => 2 + n < 2 ^ 32 -> returns (pf_C bm v) n)
  | NuTab o => table_readable bm (pt_tab o)
  end.
Lemma nu_data_accepts bm v d : framed v -> nu_generateData bm v = Ok d -> nu_readable bm d.
Proof.
  intros F M. unfold nu_generateData in M. step M lnu L. destruct (lnu =? 1); [|destruct (lnu =? 2); [|discriminate]]; step M o E; apply Ok_inj in M; subst d; cbn [nu_readable].
  - pose proof E as E'. unfold pf_make in E'. step E' k E1. skip_ E' E2. step E' k' E3. skip_ E' E4. apply Ok_inj in E'. subst o.
    apply shown_of; [eauto|]. intros n N B. exact (pf_accepts bm v v n F E N B).
  - exact (pt_table bm 1 v o (framed_nearby v F) E).
Qed.
Lemma nu_data_first bm v d : nu_generateData bm v = Ok d -> 0 <= vbeg v < len (buf v).
Proof. intros M. unfold nu_generateData in M. step M lnu L. step L x D. exact (deref_ok _ _ _ D). Qed.
Lemma nu_accepts bm v o : framed v -> vbeg v <> vend v -> nu_make bm v = Ok o ->
  nu_readable bm (nu_prompt o) /\ match nu_total o with Some t => nu_readable bm t | None => True end.
Proof.
  intros F P M. unfold nu_make, nu_generateBlocks in M. destruct (Z.ltb_spec 0 (vlen v)) as [L|L].
  2:{ exfalso. destruct F as (F1 & F2 & F3). unfold max_words in F3. unfold vlen in L. revert L. unfold u64. Z.div_mod_to_equations; lia. }
  step M x X. destruct (SFltb x (dbl 0)).
  - step M k K. step M p Ep. step M t Et. apply Ok_inj in M. subst o. cbn [nu_prompt nu_total].
    pose proof (nu_data_first _ _ _ Ep) as P1. pose proof (nu_data_first _ _ _ Et) as P2. cbn [sub vbeg buf] in P1, P2.
    pose proof (u32_range (k + 1)). destruct F as (F1 & F2 & F3).
    split; [apply (nu_data_accepts bm _ _) with (2 := Ep)|apply (nu_data_accepts bm _ _) with (2 := Et)]; unfold framed; cbn [sub vbeg vend buf]; lia.
  - step M p Ep. apply Ok_inj in M. subst o. cbn [nu_prompt nu_total]. split; [|exact I]. exact (nu_data_accepts bm v p F Ep).
Qed.

(** * Sizes known from the arguments of the constructor, or from the view itself *)

Lemma two_accepts bm v emin emax o : framed v -> SimpleLaws.two_make v emin emax = Ok o ->
  (exists x, two_C1 bm o = Ok x) /\ (exists x, two_C2 bm o = Ok x).
Proof.
  intros F M. unfold SimpleLaws.two_make in M. skip_ M V. apply Ok_inj in M. subst o. apply (verify_ok v _ F) in V.
  unfold two_C1, two_C2. cbn [two_v_]. split; apply xss_inside; try lia; (split; [exact F|lia]).
Qed.
Lemma nt_accepts bm v n o : framed v -> 0 <= n -> nt_make v n = Ok o -> nt_NTYPE o = n /\ returns (nt_NPs bm o) n.
Proof.
  intros F Hn M. unfold nt_make in M. skip_ M V. apply Ok_inj in M. subst o. apply (verify_ok v _ F) in V. split; [reflexivity|].
  unfold nt_NPs. cbn [nt_v nt_ntype]. apply xssr_inside; try lia. split; [exact F|lia].
Qed.
Lemma ix_accepts bm v n o : framed v -> 0 <= n -> 10 * n < 2 ^ 32 -> ix_make v n = Ok o ->
  nt_NTYPE o = n /\ forall p i, 1 <= p <= n -> 1 <= i <= 10 -> exists x, xss bm (nt_v o) ((p - 1) * 10 + i) = Ok x.
Proof.
  intros F Hn B M. unfold ix_make in M. skip_ M V. apply Ok_inj in M. subst o. rewrite u32_small in V by lia. apply (verify_ok v _ F) in V. split; [reflexivity|].
  intros p i Hp Hi. cbn [nt_v]. apply xss_inside; [split; [exact F|lia]|]. nia.
Qed.
Lemma iu_accepts bm v n o : framed v -> 0 <= n -> 12 * n < 2 ^ 32 -> iu_make v n = Ok o ->
  iu_NTYPE o = n /\ forall p i, 1 <= p <= n -> 1 <= i <= 12 -> exists x, xss bm (nt_v o) ((p - 1) * 12 + i) = Ok x.
Proof.
  intros F Hn B M. unfold iu_make in M. skip_ M V. apply Ok_inj in M. subst o. rewrite u32_small in V by lia. apply (verify_ok v _ F) in V. split; [reflexivity|].
  intros p i Hp Hi. cbn [nt_v]. apply xss_inside; [split; [exact F|lia]|]. nia.
Qed.
Lemma dc_accepts bm nc v o : inside v -> 0 <= nc < 2 ^ 32 -> dc_make nc v = Ok o ->
  (exists e, cos_energy bm o = Ok e) /\ returns (cos_cosines bm o) nc.
Proof.
  intros I Hn M. unfold dc_make in M. skip_ M V. apply Ok_inj in M. subst o. apply throw_if_ok in V. rewrite (inside_vlen v I), u64_small in V by lia.
  unfold cos_energy, cos_cosines. cbn [cos_v]. split; [apply xss_inside; [exact I|lia]|apply xssr_inside; try exact I; lia].
Qed.
Lemma dq_accepts bm nc v o : inside v -> 0 <= nc < 2 ^ 32 -> dq_make nc v = Ok o ->
  (exists e, cos_energy bm o = Ok e) /\ (exists p, cos_pdf bm (cos_v o) = Ok p) /\ (exists c, cos_cdf bm (cos_v o) = Ok c) /\ returns (cos_cosines bm o) nc.
Proof.
  intros I Hn M. unfold dq_make in M. skip_ M V. apply Ok_inj in M. subst o. apply throw_if_ok in V. rewrite (inside_vlen v I), u64_small in V by lia.
  unfold cos_energy, cos_cosines, cos_pdf, cos_cdf. cbn [cos_v].
  split; [|split; [|split]]; try (apply xss_inside; [exact I|lia]). apply xssr_inside; try exact I; lia.
Qed.

(** the number of rows is found from the size of the view *)
Lemma tr_accepts bm v o : inside v -> tr_make v = Ok o ->
  4 * tr_NT o = vend v - vbeg v /\ forall i, 1 <= i <= tr_NT o ->
    returns (tr_transition bm o i) 4 /\ (exists e, tr_energy bm o i = Ok e) /\ (exists p, tr_probability bm o i = Ok p).
Proof.
  intros I M. assert (B := I). destruct B as [(B1 & B2 & B3) B4]. unfold max_words in B3. unfold tr_make in M. rewrite (framed_s64 v (proj1 I)) in M.
  skip_ M V. apply throw_if_ok in V. rewrite u32_small in M by (Z.quot_rem_to_equations; lia).
  assert (E : 4 * Z.quot (vend v - vbeg v) 4 = vend v - vbeg v) by (Z.quot_rem_to_equations; lia).
  destruct (ad_accepts bm v 4 (Z.quot (vend v - vbeg v) 4) o (proj1 I)) as (-> & A1 & A2); try assumption; try lia.
  split; [exact E|]. intros i Hi. unfold tr_NT in Hi. cbn [ad_m] in Hi. unfold tr_transition, tr_energy, tr_probability.
  split; [apply A1; exact Hi|split; apply A2; lia].
Qed.
Lemma ji_accepts bm v o : inside v -> ji_make v = Ok o ->
  returns (ji_momentum bm o) (ji_NM o) /\ returns (ji_values bm o) (ji_NM o).
Proof.
  intros I M. assert (B := I). destruct B as [(B1 & B2 & B3) B4]. unfold max_words in B3. unfold ji_make in M. rewrite (framed_s64 v (proj1 I)) in M.
  rewrite (u32_small (vend v - vbeg v)) in M by lia. rewrite (Z.eqb_sym 21) in M. destruct (Z.eqb_spec (vend v - vbeg v) 21) as [E|E].
  - cbn [bind] in M. step M a A. apply Ok_inj in M. subst o. destruct (ad_accepts bm v 21 1 a (proj1 I)) as (-> & A1 & _); try assumption; try lia.
    unfold ji_momentum, ji_values, ji_NM. cbn [ji_momentum_ ji_a ad_n]. split; [exists ji_standard; split; reflexivity|apply A1; lia].
  - step M n Nn. skip_ Nn V. apply throw_if_ok in V. apply Ok_inj in Nn. subst n. rewrite u32_small in M by (Z.quot_rem_to_equations; lia). step M a A. apply Ok_inj in M. subst o.
    destruct (ad_accepts bm v (Z.quot (vend v - vbeg v) 2) 2 a (proj1 I)) as (-> & A1 & _); try assumption; try (Z.quot_rem_to_equations; lia).
    unfold ji_momentum, ji_values, ji_NM. cbn [ji_momentum_ ji_a ad_n]. split; apply A1; lia.
Qed.
Lemma jc_accepts bm v o : inside v -> jc_make v = Ok o ->
  returns (ji_momentum bm o) (ji_NM o) /\ returns (jc_integrated bm o) (ji_NM o) /\ returns (jc_factors bm o) (ji_NM o).
Proof.
  intros I M. assert (B := I). destruct B as [(B1 & B2 & B3) B4]. unfold max_words in B3. unfold jc_make in M. rewrite (framed_s64 v (proj1 I)) in M.
  rewrite (u32_small (vend v - vbeg v)) in M by lia. rewrite (Z.eqb_sym 110) in M. destruct (Z.eqb_spec (vend v - vbeg v) 110) as [E|E].
  - cbn [bind] in M. step M a A. apply Ok_inj in M. subst o. destruct (ad_accepts bm v 55 2 a (proj1 I)) as (-> & A1 & _); try assumption; try lia.
    unfold ji_momentum, jc_integrated, jc_factors, ji_NM. cbn [ji_momentum_ ji_a ad_n]. split; [exists jc_standard; split; reflexivity|split; apply A1; lia].
  - step M n Nn. skip_ Nn V. apply throw_if_ok in V. apply Ok_inj in Nn. subst n. rewrite u32_small in M by (Z.quot_rem_to_equations; lia). step M a A. apply Ok_inj in M. subst o.
    destruct (ad_accepts bm v (Z.quot (vend v - vbeg v) 3) 3 a (proj1 I)) as (-> & A1 & _); try assumption; try (Z.quot_rem_to_equations; lia).
    unfold ji_momentum, jc_integrated, jc_factors, ji_NM. cbn [ji_momentum_ ji_a ad_n]. split; [|split]; apply A1; lia.
Qed.

(** * Blocks with locators (Debug) *)

(** With checks, an iterator asked from a view is in it, or behind its last word *)
Lemma iter_debug v i p : inside v -> iter Debug v i = Ok p -> vbeg v <= p <= vend v.
Proof.
  intros I H. pose proof (inside_vlen v I) as L. destruct I as [(H1 & H2 & H3) H4]. unfold max_words in H3. unfold iter in H. cbn [debug] in H.
  skip_ H V. apply Ok_inj in H. subst p. unfold verifyIndex in V. apply throw_if_ok in V. rewrite L in V. rewrite (u64_small (vend v - vbeg v + 1)) in V by lia.
  assert (E : 1 <= u64 i <= vend v - vbeg v + 1) by lia. rewrite s64_small by lia. lia.
Qed.
(** the place it points at *)
Lemma iter_value bm v i p : 1 <= i < 2 ^ 63 -> iter bm v i = Ok p -> p = vbeg v + i - 1.
Proof.
  intros Hi H. unfold iter in H. rewrite (u64_small i) in H by lia. rewrite s64_small in H by lia. skip_ H V. apply Ok_inj in H. lia.
Qed.
Lemma mapM_in {A B} (f : A -> outcome B) l r y : mapM f l = Ok r -> In y r -> exists x, In x l /\ f x = Ok y.
Proof.
  revert r. induction l as [|a l IH]; intros r H; cbn [mapM] in H.
  - apply Ok_inj in H. subst r. intros [].
  - step H b E. step H s F. apply Ok_inj in H. subst r. intros [-> |H].
    + exists a. split; [left; reflexivity|exact E].
    + destruct (IH s F H) as (x & X1 & X2). exists x. split; [right; exact X1|exact X2].
Qed.
Lemma seqZ_range a n x : In x (seqZ a n) -> a <= x < a + Z.of_nat n.
Proof. revert a. induction n as [|n IH]; intros a; cbn [seqZ In]; [intros []|]. intros [-> |H]; [lia|]. apply IH in H. lia. Qed.
Lemma mapM_at {A B} (f : A -> outcome B) l r x : mapM f l = Ok r -> In x l -> exists y, f x = Ok y /\ In y r.
Proof.
  revert r. induction l as [|a l IH]; intros r H; [intros []|]. cbn [mapM] in H. step H b E. step H s F. apply Ok_inj in H. subst r. intros [-> |I].
  - exists b. split; [exact E|left; reflexivity].
  - destruct (IH s F I) as (y & Y1 & Y2). exists y. split; [exact Y1|right; exact Y2].
Qed.

(** Where the words an entry begins with are read, an entry may begin *)
Definition near (k : Z) (v : view) : Prop := - k <= vbeg v <= len (buf v) /\ - k <= vend v <= len (buf v) /\ len (buf v) < max_words.
Definition reads_from {D} (k : Z) (gd : view -> outcome D) : Prop := forall w d, gd w = Ok d -> - k <= vbeg w <= len (buf w).
Definition reads_first {D} (gd : view -> outcome D) : Prop := reads_from 3 gd.

Lemma at_Forall {A} (P : A -> Prop) l i x : Forall P l -> at_ l i = Ok x -> P x.
Proof. intros F H. unfold at_ in H. destruct (nth_error l _) eqn:E; [|discriminate]. apply Ok_inj in H. subst. rewrite Forall_forall in F. exact (F _ (nth_error_In _ _ E)). Qed.
Lemma bl_accepts {D} k0 bm gd v data n loc (o : @blockWithLocators D) (P : D -> Prop) : 0 <= k0 -> inside v -> 0 <= n < 2 ^ 32 ->
  (forall l, reads_from k0 (gd l)) -> (forall l w d, near k0 w -> gd l w = Ok d -> P d) -> bl_make bm gd v data n loc = Ok o ->
  bl_n o = n /\ forall i, 1 <= i <= n -> exists d, bl_datum bm o i = Ok d /\ P d.
Proof.
  intros Hk I Hn G0 G M. unfold bl_make in M. skip_ M V. step M ds E. apply Ok_inj in M. subst o. split; [reflexivity|]. cbn [bl_n bl_data].
  destruct I as [(B1 & B2 & B3) B4]. unfold bl_generateBlocks in E.
  assert (A : Forall P ds).
  { apply Forall_forall. intros x Hx. destruct (mapM_in _ _ _ _ E Hx) as (i & Ii & Fi). apply seqZ_range in Ii.
    step Fi k K. step Fi lft Le. step Fi rgt Ri. assert (P1 := G0 _ _ _ Fi). cbn [sub vbeg buf] in P1. apply (G _ _ _) with (2 := Fi).
    unfold near. cbn [sub vbeg vend buf]. split; [exact P1|]. split; [|exact B3]. destruct (Z.eqb_spec i n) as [-> |Ne].
    - apply Ok_inj in Ri. lia.
    - step Ri k' K'. destruct (mapM_at _ _ _ (i + 1) E) as (y & Fy & _); [apply Indexed.seqZ_In; lia|].
      rewrite K' in Fy. cbn [bind] in Fy. rewrite Ri in Fy. cbn [bind] in Fy. step Fy r' Rr. pose proof (G0 _ _ _ Fy) as P2. cbn [sub vbeg buf] in P2. exact P2. }
  intros i Hi. unfold bl_datum, bl_verify. cbn [bl_n bl_data]. rewrite (u64_small i) by lia. rewrite check_verifyIndex by lia. cbn [bind].
  destruct (Indexed.at_in ds i) as (d & D1); [rewrite (Indexed.mapM_count _ _ _ _ (proj1 Hn) E); lia|lia|].
  exists d. split; [exact D1|]. exact (at_Forall _ _ _ _ A D1).
Qed.

(** * Distribution data *)

Lemma dd_right_in bm v rel locator nexts r : dd_right bm v rel locator nexts = Ok r ->
  r = vend v \/ exists next l, In next nexts /\ rel next = Ok l /\ locator < l /\ iter bm v l = Ok r.
Proof.
  induction nexts as [|x nexts IH]; cbn [dd_right]; intros H.
  - left. apply Ok_inj in H. auto.
  - step H l L. destruct (Z.ltb_spec locator l).
    + right. exists x, l. split; [left; reflexivity|auto].
    + destruct (IH H) as [-> |(next & l' & I & R)]; [left; reflexivity|right]. exists next, l'. split; [right; exact I|exact R].
Qed.
Lemma dd_dists_accepts {D} bm gd conv v locb values n ds (P : D -> Prop) : -3 <= vend v <= len (buf v) -> len (buf v) < max_words ->
  (forall x l, reads_first (gd x l)) -> (forall x l w d, nearby w -> gd x l w = Ok d -> P d) ->
  mapM (dd_distribution bm gd conv v locb values n) (seqZ 1 (Z.to_nat n)) = Ok ds -> Forall P ds.
Proof.
  intros B2 B3 G0 G E. apply Forall_forall. intros x Hx. destruct (mapM_in _ _ _ _ E Hx) as (i & Ii & Fi). apply seqZ_range in Ii.
  unfold dd_distribution in Fi. step Fi e Ee. step Fi k K. step Fi lc Lc. step Fi lft Le. step Fi rgt Ri.
  assert (P1 := G0 _ _ _ _ Fi). cbn [sub vbeg buf] in P1. apply (G _ _ _ _) with (2 := Fi).
  unfold nearby. cbn [sub vbeg vend buf]. split; [exact P1|]. split; [|exact B3].
  destruct (dd_right_in _ _ _ _ _ _ Ri) as [-> |(next & l & In_ & Rl & _ & It)]; [exact B2|].
  apply seqZ_range in In_. destruct (mapM_at _ _ _ next E) as (y & Fy & _); [apply Indexed.seqZ_In; lia|].
  unfold dd_distribution in Fy. step Fy e' Ee'. step Fy k' K'. rewrite Rl in Fy. cbn [bind] in Fy. rewrite It in Fy. cbn [bind] in Fy. step Fy r' Rr.
  pose proof (G0 _ _ _ _ Fy) as P2. cbn [sub vbeg buf] in P2. exact P2.
Qed.

Lemma values_read bm (values : columnData) n c i : cd_N bm values = Ok n -> 1 <= c <= cd_nc values -> 1 <= i <= n -> n < 2 ^ 31 -> cd_nc values < 2 ^ 31 ->
  inside (cd_v values) -> 1 + n * cd_nc values <= vend (cd_v values) - vbeg (cd_v values) -> exists x, dd_value bm values c i = Ok x.
Proof.
  intros N Hc Hi Bn Bc I S. unfold dd_value. assert (V : dd_verify bm values i = Ok tt).
  { unfold dd_verify. rewrite N. cbn [bind]. destruct (debug bm); [|reflexivity]. apply Indexed.verify_in; lia. }
  rewrite V. cbn [bind]. unfold cd_value. rewrite N. cbn [bind]. apply xss_inside; [exact I|]. nia.
Qed.

Definition dd_readable {D} bm (P : D -> Prop) (o : distributionData D) (nb n : Z) : Prop :=
  dd_NB bm o = Ok nb /\ returns (dd_NBT bm o) nb /\ returns (dd_INT bm o) nb
  /\ dd_N bm o = Ok n /\ returns (dd_energies bm o) n
  /\ forall i, 1 <= i <= n -> (exists e, dd_energy bm o i = Ok e) /\ exists d, dd_datum bm o i = Ok d /\ P d.
Definition di_readable {D} bm (P : D -> Prop) (o : distributionDataI D) (n : Z) : Prop :=
  di_N bm o = Ok n /\ returns (di_column bm o 1) n
  /\ forall i, 1 <= i <= n -> (exists e, di_value bm o 1 i = Ok e) /\ exists d, di_datum bm o i = Ok d /\ P d.

(** the values in front of the distributions *)
Lemma front_values {D} bm (P : D -> Prop) w n ds : inside w -> cd_N bm (ColumnData w 2) = Ok n -> n < 2 ^ 31 -> 1 + 2 * n <= vend w - vbeg w -> len ds = n -> Forall P ds ->
  returns (cd_column bm (ColumnData w 2) 1) n
  /\ forall i, 1 <= i <= n -> (exists e, dd_value bm (ColumnData w 2) 1 i = Ok e)
      /\ exists d, (_ <- dd_verify bm (ColumnData w 2) i ;; at_ ds i) = Ok d /\ P d.
Proof.
  intros I Nn Bn S L A. pose proof (Indexed.cd_N_range _ _ _ Nn) as R. split.
  - apply cd_columns; try assumption; lia.
  - intros i Hi. split; [apply (values_read bm _ n); cbn [cd_nc cd_v]; try assumption; lia|].
    destruct (Indexed.at_in ds i ltac:(lia) ltac:(lia)) as (d & D1). exists d. split; [|exact (at_Forall _ _ _ _ A D1)].
    unfold dd_verify. rewrite Nn. cbn [bind]. rewrite (Indexed.verify_in 1 n i) by lia. destruct (debug bm); exact D1.
Qed.

Lemma dd_accepts {D} bm gd locb v (o : distributionData D) nb n (P : D -> Prop) : nearby v ->
  (forall x l, reads_first (gd x l)) -> (forall x l w d, nearby w -> gd x l w = Ok d -> P d) ->
  dd_make bm gd locb v = Ok o -> dd_NB bm o = Ok nb -> dd_N bm o = Ok n -> 2 + 2 * nb + 2 * n < 2 ^ 32 -> dd_readable bm P o nb n.
Proof.
  intros F G0 G M NB Nn B. unfold dd_make in M.
  step M nr E1. destruct (word_size _ _ _ _ E1) as (x1 & X1 & R1). step M ne E2. destruct (word_size _ _ _ _ E2) as (x2 & X2 & R2). skip_ M V.
  unfold dd_generateBlocks in M. step M k1 K1. destruct (ixss_size_word _ _ _ _ K1) as (y1 & j1 & Y1 & T1 & ->). assert (y1 = x1) by congruence. subst y1.
  destruct (round_int _ _ _ R1 T1) as [-> P1]. rewrite (u64_small nr) in M by lia. step M k2 K2. destruct (ixss_size_word _ _ _ _ K2) as (y2 & j2 & Y2 & T2 & ->).
  replace (1 + 2 * nr + 1) with (2 + 2 * nr) in X2 by lia. assert (y2 = x2) by congruence. subst y2. destruct (round_int _ _ _ R2 T2) as [-> P2]. rewrite (u64_small ne) in M by lia.
  step M dt Dt. step M en En. apply iter_value in Dt; [|lia]. apply iter_value in En; [|lia]. subst dt en.
  step M ii Ei. step M vs Ev. step M m Em. step M ds Ed. apply Ok_inj in M. subst o. unfold dd_NB, id_NB, dd_N in NB, Nn. cbn [dd_interp dd_values] in NB, Nn.
  rewrite Nn in Em. apply Ok_inj in Em. subst m.
  unfold id_make, cd_make in Ei, Ev. step Ei j1 F1. skip_ Ei V1. apply Ok_inj in Ei. subst ii. step Ev j2 F2. skip_ Ev V2. apply Ok_inj in Ev. subst vs.
  pose proof (xss_deref bm v 1 x1 ltac:(lia) X1) as D1. pose proof (xss_deref bm v (2 + 2 * nr) x2 ltac:(lia) X2) as D2.
  replace (vbeg v + 1 - 1) with (vbeg v) in D1 by lia. pose proof (deref_ok _ _ _ D1) as O1.
  set (w1 := sub v (vbeg v) (vbeg v + (2 + 2 * nr) - 1)) in *. set (w2 := sub v (vbeg v + (2 + 2 * nr) - 1) (vbeg v + (2 + 2 * nr + 2 * ne + 1) - 1)) in *.
  assert (nb = nr). { rewrite (cd_N_word_counts bm w1 2 x1 nr nb); [apply u64_small; lia|unfold w1; cbn [sub vbeg vend]; lia|exact D1|exact T1|exact NB]. }
  assert (n = ne). { rewrite (cd_N_word_counts bm w2 2 x2 ne n); [apply u64_small; lia|unfold w2; cbn [sub vbeg vend]; lia|exact D2|exact T2|exact Nn]. }
  subst nb n. rewrite u32_small in V by lia. apply (verify_near v _ F) in V. assert (I : inside v) by (destruct F as (Q1 & Q2 & Q3); unfold inside, framed; lia).
  assert (I1 : inside w1) by (apply sub_inside; try assumption; lia). assert (I2 : inside w2) by (apply sub_inside; try assumption; lia).
  assert (Pd : Forall P ds) by (destruct F as (Q1 & Q2 & Q3); exact (dd_dists_accepts bm gd as_int v locb _ ne ds P Q2 Q3 G0 G Ed)).
  destruct (front_values bm P w2 ne ds I2 Nn ltac:(lia) ltac:(unfold w2; cbn [sub vbeg vend]; lia) (Indexed.mapM_count _ 1 ne ds (proj1 P2) Ed) Pd) as [A1 A2].
  unfold dd_readable, dd_NB, id_NB, dd_NBT, dd_INT, id_NBT, id_INT, dd_N, dd_energies, dd_energy, dd_datum. cbn [dd_interp dd_values dd_dists].
  split; [exact NB|]. split; [|split; [|split; [exact Nn|split; [exact A1|exact A2]]]]; apply cd_columns; try assumption; unfold w1; cbn [sub vbeg vend]; lia.
Qed.
Lemma dd_counted {D} bm gd locb v (o : distributionData D) : dd_make bm gd locb v = Ok o -> (exists nb, dd_NB bm o = Ok nb) /\ (exists n, dd_N bm o = Ok n).
Proof.
  intros M. unfold dd_make in M. step M nr E1. destruct (word_size _ _ _ _ E1) as (x1 & X1 & R1). step M ne E2. skip_ M V.
  unfold dd_generateBlocks in M. step M k1 K1. destruct (ixss_size_word _ _ _ _ K1) as (y1 & j1 & Y1 & T1 & ->). assert (y1 = x1) by congruence. subst y1.
  destruct (round_int _ _ _ R1 T1) as [-> P1]. rewrite (u64_small nr) in * by lia. step M k2 K2. step M dt Dt. step M en En.
  apply iter_value in Dt; [|lia]. step M i Ei. step M vs Vs. step M n Nn. step M ds Ds. apply Ok_inj in M. subst o.
  unfold dd_NB, id_NB, dd_N. cbn [dd_interp dd_values]. split; [|eauto].
  unfold id_make, cd_make in Ei. step Ei i1 F1. skip_ Ei V1. apply Ok_inj in Ei. subst i.
  pose proof (xss_deref bm v 1 x1 ltac:(lia) X1) as D1. replace (vbeg v + 1 - 1) with (vbeg v) in D1 by lia.
  apply (cd_N_some bm _ 2 x1 nr); cbn [sub vbeg vend buf]; try assumption; lia.
Qed.
(** what an object with distributions shows *)
Definition dists_readable {D} bm (P : D -> Prop) (o : distributionData D) : Prop :=
  shown (dd_NB bm o) (fun nb => shown (dd_N bm o) (fun n => 2 + 2 * nb + 2 * n < 2 ^ 32 -> dd_readable bm P o nb n)).
Lemma dd_shown {D} bm gd locb v (o : distributionData D) (P : D -> Prop) : nearby v ->
  (forall x l, reads_first (gd x l)) -> (forall x l w d, nearby w -> gd x l w = Ok d -> P d) -> dd_make bm gd locb v = Ok o -> dists_readable bm P o.
Proof.
  intros F G0 G M. destruct (dd_counted bm gd locb v o M) as [H1 H2]. apply shown_of; [exact H1|]. intros nb A. apply shown_of; [exact H2|].
  intros n B C. exact (dd_accepts bm gd locb v o nb n P F G0 G M A B C).
Qed.

Lemma di_accepts {D} bm gd locb v (o : distributionDataI D) n (P : D -> Prop) : nearby v ->
  (forall x l, reads_first (gd x l)) -> (forall x l w d, nearby w -> gd x l w = Ok d -> P d) ->
  di_make bm gd locb v = Ok o -> di_N bm o = Ok n -> 2 + 2 * n < 2 ^ 32 -> di_readable bm P o n.
Proof.
  intros F G0 G M Nn B. unfold di_make in M. step M ne E2. destruct (word_size _ _ _ _ E2) as (x2 & X2 & R2). skip_ M V.
  unfold di_generateBlocks in M. step M k2 K2. destruct (ixss_size_word _ _ _ _ K2) as (y2 & j2 & Y2 & T2 & ->).
  assert (y2 = x2) by congruence. subst y2. destruct (round_int _ _ _ R2 T2) as [-> P2]. rewrite (u64_small ne) in M by lia.
  step M dt Dt. step M en En. apply iter_value in Dt; [|lia]. apply iter_value in En; [|lia]. subst dt en.
  step M vs Ev. step M m Em. step M ds Ed. apply Ok_inj in M. subst o. unfold di_N in Nn. cbn [di_values] in Nn.
  rewrite Nn in Em. apply Ok_inj in Em. subst m. unfold cd_make in Ev. step Ev j2 F2. skip_ Ev V2. apply Ok_inj in Ev. subst vs.
  pose proof (xss_deref bm v 2 x2 ltac:(lia) X2) as D2. pose proof (deref_ok _ _ _ D2) as O2. set (w2 := sub v (vbeg v + 2 - 1) (vbeg v + (2 + 2 * ne + 1) - 1)) in *.
  assert (n = ne). { rewrite (cd_N_word_counts bm w2 2 x2 ne n); [apply u64_small; lia|unfold w2; cbn [sub vbeg vend]; lia|exact D2|exact T2|exact Nn]. }
  subst n. rewrite u32_small in V by lia. apply (verify_near v _ F) in V. assert (I2 : inside w2) by (destruct F as (Q1 & Q2 & Q3); unfold inside, framed, w2; cbn [sub buf vbeg vend]; lia).
  assert (Pd : Forall P ds) by (destruct F as (Q1 & Q2 & Q3); exact (dd_dists_accepts bm gd u64 v locb _ ne ds P Q2 Q3 G0 G Ed)).
  destruct (front_values bm P w2 ne ds I2 Nn ltac:(lia) ltac:(unfold w2; cbn [sub vbeg vend]; lia) (Indexed.mapM_count _ 1 ne ds (proj1 P2) Ed) Pd) as [A1 A2].
  unfold di_readable, di_N, di_column, di_value, di_datum. cbn [di_values di_dists]. auto.
Qed.
Definition idists_readable {D} bm (P : D -> Prop) (o : distributionDataI D) : Prop :=
  shown (di_N bm o) (fun n => 2 + 2 * n < 2 ^ 32 -> di_readable bm P o n).
Lemma di_shown {D} bm gd locb v (o : distributionDataI D) (P : D -> Prop) : nearby v ->
  (forall x l, reads_first (gd x l)) -> (forall x l w d, nearby w -> gd x l w = Ok d -> P d) -> di_make bm gd locb v = Ok o -> idists_readable bm P o.
Proof.
  intros F G0 G M. apply shown_of; [|intros n B C; exact (di_accepts bm gd locb v o n P F G0 G M B C)].
  unfold di_make in M. step M ne E2. skip_ M V. unfold di_generateBlocks in M. step M k2 K2. step M dt Dt. step M en En. step M vs Vs. step M n Nn. step M ds Ds.
  apply Ok_inj in M. subst o. unfold di_N. cbn [di_values]. eauto.
Qed.

(** Laws 4 and 67: energy distributions, and energy distributions for each cosine *)
Definition tp_readable bm (v : view) : Prop := shown (tp_numberValues bm v) (fun n => 2 + 3 * n < 2 ^ 32 ->
  returns (tp_values bm v) n /\ returns (tp_pdf bm v) n /\ returns (tp_cdf bm v) n).
Lemma tp_make_same bm v o : tp_make bm v = Ok o -> o = v.
Proof. intros M. unfold tp_make in M. step M n Nn. skip_ M V. apply Ok_inj in M. auto. Qed.
Lemma tp_first bm : reads_first (tp_make bm).
Proof. intros w d M. unfold tp_make in M. step M n Nn. pose proof (ixss_size_in_buf bm w 2 n ltac:(lia) Nn). lia. Qed.
Lemma tp_make_readable bm v o : nearby v -> tp_make bm v = Ok o -> tp_readable bm o.
Proof.
  intros F M. pose proof (tp_make_same _ _ _ M). subst o. apply shown_of; [unfold tp_make in M; step M n Nn; eauto|]. intros n Nn B. exact (tp_accepts bm v v n F M Nn B).
Qed.
Lemma tq_first bm x l : reads_first (tq_make bm x l).
Proof. intros w d H. unfold tq_make in H. step H t T. exact (tp_first bm w t T). Qed.
Lemma tq_readable bm x l w d : nearby w -> tq_make bm x l w = Ok d -> tp_readable bm (snd d).
Proof. intros W H. unfold tq_make in H. step H t T. apply Ok_inj in H. subst d. exact (tp_make_readable bm w t W T). Qed.
Lemma og_accepts bm locb v o : nearby v -> og_make bm locb v = Ok o -> dists_readable bm (fun t => tp_readable bm (snd t)) o.
Proof. intros F. apply dd_shown; [exact F|intros x l; exact (tq_first bm x l)|exact (tq_readable bm)]. Qed.
Lemma aed_accepts bm locb v o : nearby v -> aed_make bm locb v = Ok o ->
  dists_readable bm (fun t => idists_readable bm (fun u => tp_readable bm (snd u)) (snd t)) o.
Proof.
  intros F. apply dd_shown; [exact F| |].
  - intros x l w d H. unfold ae_make in H. step H t T. unfold di_make in T. step T ne E2. step E2 z Z2. pose proof (xss_in_buf bm w 2 z ltac:(lia) Z2). lia.
  - intros x l w d W H. unfold ae_make in H. step H t T. apply Ok_inj in H. subst d. cbn [snd]. apply (di_shown bm (tq_make bm) l w t); try assumption.
    + intros x' l'. exact (tq_first bm x' l').
    + exact (tq_readable bm).
Qed.

(** * Angular distributions (Debug: without checks the locators of equiprobable bins are not looked at) *)

Definition ang_readable bm (d : angular view) : Prop :=
  match d with AIso _ => True | AEqui _ v => returns (eq_cosines bm v) 33 | ATab _ v => tp_readable bm v end.
Definition an_readable bm (o : angularData) (n : Z) : Prop :=
  an_NE bm o = Ok n /\ returns (an_incidentEnergies bm o) n
  /\ forall i, 1 <= i <= n -> exists d, an_datum bm o i = Ok d /\ ang_readable bm d.

Lemma iter_debug_value v i p : inside v -> iter Debug v i = Ok p -> 1 <= u64 i /\ p = vbeg v + u64 i - 1 /\ vbeg v <= p <= vend v.
Proof.
  intros I H. pose proof (inside_vlen v I) as L. destruct I as [(H1 & H2 & H3) H4]. unfold max_words in H3. unfold iter in H. cbn [debug] in H.
  skip_ H V. apply Ok_inj in H. subst p. unfold verifyIndex in V. apply throw_if_ok in V. rewrite L in V. rewrite (u64_small (vend v - vbeg v + 1)) in V by lia.
  assert (E : 1 <= u64 i <= vend v - vbeg v + 1) by lia. rewrite s64_small by lia. lia.
Qed.
(** two locators, the second one larger: the words between them are in the view *)
Lemma between_inside v a b p q : inside v -> iter Debug v a = Ok p -> (q = vend v \/ (u64 a <= u64 b /\ iter Debug v b = Ok q)) -> inside (sub v p q).
Proof.
  intros I A Bq. destruct (iter_debug_value v a p I A) as (A1 & A2 & A3). destruct Bq as [-> |[Lt Bq]].
  - apply sub_inside; try assumption; lia.
  - destruct (iter_debug_value v b q I Bq) as (B1 & B2 & B3). apply sub_inside; try assumption; lia.
Qed.
Lemma u64_idem z : u64 (u64 z) = u64 z.
Proof. unfold u64. apply Z.mod_mod. lia. Qed.
Lemma an_relative_u64 bm locb values i l : an_relative bm locb values i = Ok l -> u64 l = l.
Proof. unfold an_relative. intros H. step H k K. apply Ok_inj in H. subst l. destruct (k =? 0); [reflexivity|apply u64_idem]. Qed.
Lemma an_right_in bm v locb values locator nexts r : an_right bm v locb values locator nexts = Ok r ->
  r = vend v \/ exists next l, an_relative bm locb values next = Ok l /\ locator < l /\ iter bm v l = Ok r.
Proof.
  induction nexts as [|x nexts IH]; cbn [an_right]; intros H.
  - left. apply Ok_inj in H. auto.
  - step H l L. destruct (Z.ltb_spec locator l); [right; exists x, l; auto|exact (IH H)].
Qed.
Lemma equi_readable bm e v d : inside v -> Angular.eq_make e v = Ok d -> ang_readable bm d.
Proof.
  intros I M. unfold Angular.eq_make in M. skip_ M V. apply Ok_inj in M. subst d. cbn [ang_readable]. apply throw_if_ok in V.
  pose proof (inside_vlen v I) as L. unfold vlen in L. rewrite L in V. unfold eq_cosines. apply xssr_inside; try assumption; lia.
Qed.
Lemma ta_readable bm e v d : nearby v -> ta_make bm e v = Ok d -> ang_readable bm d.
Proof. intros F M. unfold ta_make in M. step M w W. apply Ok_inj in M. subst d. exact (tp_make_readable bm v w F W). Qed.

Lemma an_accepts locb v o n : nearby v -> an_make Debug locb v = Ok o -> an_NE Debug o = Ok n -> 1 + 2 * n < 2 ^ 32 -> an_readable Debug o n.
Proof.
  intros F M Nn B. unfold an_make in M. step M o' G. step M n' N'. skip_ M V. apply Ok_inj in M. subst o'. unfold an_NE in Nn. rewrite Nn in N'. apply Ok_inj in N'. subst n'.
  pose proof (Indexed.cd_N_range _ _ _ Nn) as Rn. rewrite u32_small in V by lia. apply (verify_near v _ F) in V.
  unfold an_generateBlocks in G. step G ne E1. pose proof (ixss_size_in_buf Debug v 1 ne ltac:(lia) E1) as P0.
  assert (I : inside v) by (destruct F as (Q1 & Q2 & Q3); unfold inside, framed; lia). assert (Bf := proj1 I). destruct Bf as (B1 & B2 & B3). unfold max_words in B3.
  step G en En. destruct (iter_debug_value v _ en I En) as (_ & Ev & Eb). step G vs Vs. step G m Em. step G ds Ed. apply Ok_inj in G. subst o. cbn [an_values] in Nn.
  rewrite Nn in Em. apply Ok_inj in Em. subst m. unfold cd_make in Vs. step Vs j F2. skip_ Vs V2. apply Ok_inj in Vs. subst vs.
  assert (Pd : Forall (ang_readable Debug) ds).
  { apply Forall_forall. intros x Hx. destruct (mapM_in _ _ _ _ Ed Hx) as (i & Ii & Fi). unfold an_distribution in Fi. step Fi k K. step Fi e Ee.
    destruct (k =? 0); [apply Ok_inj in Fi; subst x; exact Logic.I|]. step Fi lc Lc. step Fi lft Le. step Fi rgt Ri.
    assert (W : inside (sub v lft rgt)).
    { destruct (an_right_in _ _ _ _ _ _ _ Ri) as [-> |(next & l & Rl & Lt & It)].
      - apply (between_inside v lc lc); auto.
      - apply (between_inside v lc l); try assumption. right. split; [|exact It]. rewrite (an_relative_u64 _ _ _ _ _ Lc), (an_relative_u64 _ _ _ _ _ Rl). lia. }
    destruct (k <? 0); [exact (ta_readable Debug e _ x (framed_nearby _ (proj1 W)) Fi)|exact (equi_readable Debug e _ x W Fi)]. }
  unfold an_readable, an_NE, an_incidentEnergies, an_datum. cbn [an_values an_dists]. split; [exact Nn|].
  set (w := sub v (vbeg v) en) in *. assert (I2 : inside w) by (apply sub_inside; try assumption; lia).
  (* the number of words of the values is that of the count *)
  assert (S : n = 0 \/ 1 + 2 * n <= en - vbeg v).
  { destruct (Z.eq_dec (vbeg v) en) as [Ee|Ne]; [left|right].
    - unfold cd_N, vempty in Nn. cbn [cd_v] in Nn. unfold w in Nn. cbn [sub vbeg vend] in Nn. rewrite (proj2 (Z.eqb_eq _ _) Ee) in Nn. apply Ok_inj in Nn. lia.
    - destruct (ixss_size_word _ _ _ _ E1) as (x1 & k1 & X1 & T1 & Q1). pose proof (xss_deref Debug v 1 x1 ltac:(lia) X1) as D1. replace (vbeg v + 1 - 1) with (vbeg v) in D1 by lia.
      pose proof (cd_N_word_counts Debug w 2 x1 k1 n Ne D1 T1 Nn) as En'. assert (Enn : ne = n) by congruence. rewrite Enn in Ev.
      rewrite (u64_small (2 * n + 2)) in Ev by lia. lia. }
  assert (L : len ds = n) by exact (Indexed.mapM_count _ 1 n ds (proj1 Rn) Ed).
  split.
  - destruct S as [-> |S].
    + unfold cd_column. rewrite Nn. cbn [bind cd_v]. destruct (Z.eq_dec (vbeg v) en) as [Ee|Ne].
      * exfalso. unfold u64 in Ev. revert Ev. destruct (ixss_size_range _ _ _ _ E1); Z.div_mod_to_equations; lia.
      * apply xssr_inside; try assumption; unfold w; cbn [sub vbeg vend]; lia.
    + apply cd_columns; try assumption; unfold w; cbn [sub vbeg vend]; lia.
  - intros i Hi. destruct (Indexed.at_in ds i ltac:(lia) ltac:(lia)) as (d & D1). exists d. split; [|exact (at_Forall _ _ _ _ Pd D1)].
    unfold an_verify. cbn [debug]. rewrite Nn. cbn [bind]. rewrite (Indexed.verify_in 1 n i) by lia. exact D1.
Qed.
Definition angular_readable bm (a : angularData) : Prop := shown (an_NE bm a) (fun n => 1 + 2 * n < 2 ^ 32 -> an_readable bm a n).
Lemma an_shown locb v o : nearby v -> an_make Debug locb v = Ok o -> angular_readable Debug o.
Proof.
  intros F M. apply shown_of; [|intros n A B; exact (an_accepts locb v o n F M A B)]. unfold an_make in M. step M o' G. step M n Cn. skip_ M V. apply Ok_inj in M. subst o'.
  exists n. exact Cn.
Qed.

Definition ab_readable bm (d : adist angularData) : Prop :=
  match d with DData a => angular_readable bm a | _ => True end.
Lemma ab_right_in bm v nr zero xand locator nexts r : ab_right bm v nr zero xand locator nexts = Ok r ->
  r = vend v \/ exists l, u64 l = l /\ locator < l /\ iter bm v l = Ok r.
Proof.
  induction nexts as [|x nexts IH]; cbn [ab_right]; intros H.
  - left. apply Ok_inj in H. auto.
  - step H l L. destruct (Z.ltb_spec locator (u64 (xand + l - 1))); [right; exists (u64 (xand + l - 1)); split; [apply u64_idem|auto]|exact (IH H)].
Qed.
Lemma ab_accepts v data nr (zero : bool) o : inside v -> 0 <= nr < 2 ^ 32 -> ab_make Debug v data nr zero = Ok o ->
  ab_nr o = nr /\ forall i, (if zero then 0 else 1) <= i <= nr -> exists d, ab_datum Debug o i = Ok d /\ ab_readable Debug d.
Proof.
  intros I Hn M. unfold ab_make in M. skip_ M V. step M ds E. apply Ok_inj in M. subst o. split; [reflexivity|].
  assert (A : Forall (ab_readable Debug) ds).
  { apply Forall_forall. intros x Hx. unfold ab_generateBlocks in E. destruct (mapM_in _ _ _ _ E Hx) as (i & Ii & Fi). unfold ab_distribution in Fi. step Fi l L.
    destruct (0 <=? l); [|apply Ok_inj in Fi; subst x; exact Logic.I]. destruct (l =? 0); [apply Ok_inj in Fi; subst x; exact Logic.I|].
    step Fi lft Le. step Fi rgt Ri. step Fi d D. apply Ok_inj in Fi. subst x. cbn [ab_readable].
    apply (an_shown (u64 l) (sub v lft rgt) d); try assumption. apply framed_nearby.
    destruct (ab_right_in _ _ _ _ _ _ _ _ Ri) as [-> |(l' & U & Lt & It)]; [exact (proj1 (between_inside v _ 0 lft _ I Le (or_introl eq_refl)))|].
    apply (between_inside v _ l' lft rgt I Le). right. split; [rewrite u64_idem, U; lia|exact It]. }
  assert (L : len ds = nr + (if zero then 1 else 0)) by (refine (Indexed.mapM_count _ _ _ _ _ E); destruct zero; lia).
  intros i Hi. unfold ab_datum. cbn [ab_nr ab_zero ab_data]. rewrite (u64_small i) by (destruct zero; lia). rewrite check_verifyIndex by exact Hi. cbn [bind].
  destruct (Indexed.at_in ds (if zero then i + 1 else i)) as (d & D1); [destruct zero; lia|destruct zero; lia|]. exists d. split; [exact D1|exact (at_Forall _ _ _ _ A D1)].
Qed.

(** * Law 1: equiprobable outgoing energy bins *)

Lemma eq_accepts bm v o nr ne nb : framed v -> SimpleLaws.eq_make bm v = Ok o -> eq_NB bm o = Ok nr -> eq_NE bm o = Ok ne -> eq_NET bm o = Ok nb ->
  3 + 2 * nr + ne + ne * nb < 2 ^ 32 ->
  returns (eq_NBT bm o) nr /\ returns (eq_INT bm o) nr /\ returns (eq_incidentEnergies bm o) ne
  /\ forall i, 1 <= i <= ne -> (exists e, eq_incidentEnergy bm o i = Ok e)
       /\ exists d, eq_distribution bm o i = Ok d /\ eqb_numberBins d + 1 = nb /\ returns (eqb_energies bm d) nb.
Proof.
  intros F M NR NE NB B. assert (Bf := F). destruct Bf as (B1 & B2 & B3). unfold max_words in B3. unfold SimpleLaws.eq_make in M.
  step M k1 K1. step M k2 K2. step M k3 K3. skip_ M V. unfold eq_generateBlocks in M. rewrite K1 in M. cbn [bind] in M. rewrite K2 in M. cbn [bind] in M.
  step M ii Ei. step M vs Ev. step M ds Ed. apply Ok_inj in M. subst o. unfold eq_NB, id_NB, eq_NE, eq_NET in NR, NE, NB. cbn [eq_interp eq_energies_ eq_v] in NR, NE, NB.
  unfold id_make, cd_make in Ei, Ev. step Ei j1 F1. skip_ Ei V1. apply Ok_inj in Ei. subst ii. step Ev j2 F2. skip_ Ev V2. apply Ok_inj in Ev. subst vs.
  destruct (ixss_size_word _ _ _ _ K1) as (x1 & i1 & X1 & T1 & Q1). destruct (ixss_size_word _ _ _ _ K2) as (x2 & i2 & X2 & T2 & Q2). 
  pose proof (to_int_range _ _ T1) as R1. pose proof (to_int_range _ _ T2) as R2. pose proof (xss_deref bm v 1 x1 ltac:(lia) X1) as D1. replace (vbeg v + 1 - 1) with (vbeg v) in D1 by lia.
  set (p := adv (vbeg v) (2 * k1) + 1) in *. set (w1 := sub v (vbeg v) p) in *. set (w2 := sub v p (adv p k2 + 1)) in *.
  assert (Np : vbeg v <> p). { unfold p, adv, s64. Z.div_mod_to_equations; lia. }
  assert (E1 : k1 = nr). { rewrite Q1. symmetry. exact (cd_N_word_counts bm w1 2 x1 i1 nr Np D1 T1 NR). }
  assert (P3 : 0 <= nb) by (assert (NB' := NB); unfold eq_NET_ in NB'; step NB' a A; step NB' b Bb; pose proof (ixss_size_range _ _ _ _ NB'); lia).
  pose proof (Indexed.cd_N_range _ _ _ NE) as P2. assert (P4 : 0 <= ne * nb) by nia.
  clear Q1. subst k1. pose proof (ixss_size_range _ _ _ _ K1) as S1. assert (S1' : 0 <= nr < 2 ^ 31) by lia. assert (Ep : p = vbeg v + 2 * nr + 1) by (unfold p; rewrite adv_small by lia; reflexivity). clearbody p. subst p.
  pose proof (xss_deref bm v (1 + 2 * nr + 1) x2 ltac:(lia) X2) as D2. replace (vbeg v + (1 + 2 * nr + 1) - 1) with (vbeg v + 2 * nr + 1) in D2 by lia. pose proof (deref_ok _ _ _ D2) as O2.
  assert (S2 : 0 <= k2 < 2 ^ 31).
  { destruct (ixss_size_range _ _ _ _ K2) as [S2|S2]; [exact S2|exfalso].
    destruct (mapM_at _ _ _ (2 ^ 33) Ed) as (y & Fy & _); [apply Indexed.seqZ_In; lia|]. step Fy e Ee. unfold eq_energy_ in Ee. skip_ Ee Ve. unfold eq_verify in Ve. unfold cd_value in Ee.
    destruct (debug bm).
    - rewrite NE in Ve. cbn [bind] in Ve. unfold verifyIndex in Ve. apply throw_if_ok in Ve. rewrite u64_small in Ve by lia. nia.
    - rewrite NE in Ee. cbn [bind cd_v] in Ee. pose proof (xss_in_buf bm w2 (2 + (1 - 1) * ne + 2 ^ 33 - 1) e ltac:(lia) Ee) as XB.
      unfold w2 in XB. cbn [sub vbeg buf] in XB. lia. }
  assert (E2 : k2 = ne).
  { rewrite Q2. symmetry. apply (cd_N_word_counts bm w2 1 x2 i2 ne); try assumption. unfold w2. cbn [sub vbeg vend]. rewrite adv_small by lia. lia. }
  clear Q2. subst k2. unfold w2 in *. rewrite (adv_small _ ne) in * by lia.
  assert (NB' := NB). unfold eq_NET_, id_NB in NB'. rewrite NR in NB'. cbn [bind] in NB'. rewrite NE in NB'. cbn [bind] in NB'. assert (k3 = nb) by congruence. subst k3.
  rewrite u32_small in V by lia. apply (verify_ok v _ F) in V. assert (I : inside v) by (split; [exact F|nia]).
  assert (I1 : inside w1) by (unfold w1; apply sub_inside; try assumption; nia).
  assert (I2 : inside (sub v (vbeg v + 2 * nr + 1) (vbeg v + 2 * nr + 1 + ne + 1))) by (apply sub_inside; try assumption; nia).
  unfold eq_NBT, eq_INT, eq_incidentEnergies, id_NBT, id_INT. cbn [eq_interp eq_energies_].
  split; [apply cd_columns; try assumption; unfold w1; cbn [sub vbeg vend]; lia|]. split; [apply cd_columns; try assumption; unfold w1; cbn [sub vbeg vend]; lia|].
  split; [apply cd_columns; try assumption; cbn [sub vbeg vend]; lia|].
  intros i Hi. assert (Ve : eq_verify bm (ColumnData (sub v (vbeg v + 2 * nr + 1) (vbeg v + 2 * nr + 1 + ne + 1)) 1) i = Ok tt).
  { unfold eq_verify. rewrite NE. cbn [bind]. destruct (debug bm); [|reflexivity]. apply Indexed.verify_in; lia. }
  assert (L : len ds = ne) by exact (Indexed.mapM_count _ 1 ne ds (proj1 P2) Ed). split.
  - unfold eq_incidentEnergy, eq_energy_. cbn [eq_energies_]. rewrite Ve. cbn [bind]. unfold cd_value. rewrite NE. cbn [bind cd_v]. apply xss_inside; [exact I2|cbn [sub vbeg vend]; lia].
  - unfold eq_distribution. cbn [eq_energies_ eq_bins]. rewrite Ve. cbn [bind]. destruct (Indexed.at_in ds i ltac:(lia) ltac:(lia)) as (d & D3). exists d. split; [exact D3|].
    assert (A : Forall (fun d => eqb_numberBins d + 1 = nb /\ returns (eqb_energies bm d) nb) ds); [|exact (at_Forall _ _ _ _ A D3)].
    apply Forall_forall. intros x Hx. destruct (mapM_in _ _ _ _ Ed Hx) as (k & Ik & Fk). apply seqZ_range in Ik. step Fk e Ee. rewrite NB in Fk. cbn [bind] in Fk. apply Ok_inj in Fk. subst x.
    assert (Hk : 0 <= nb * (k - 1) /\ nb * (k - 1) + nb = nb * k /\ nb * k <= ne * nb) by nia.
    rewrite !(adv_small (_ + 1)) by lia. set (z := sub _ _ _).
    assert (Iz : inside z) by (unfold z; apply sub_inside; try assumption; lia). assert (Lz : vend z - vbeg z = nb) by (unfold z; cbn [sub vbeg vend]; lia).
    assert (Ez : eqb_numberBins (e, z) + 1 = nb) by (unfold eqb_numberBins; cbn [snd]; rewrite (inside_vlen z Iz), Lz, s32_small by lia; lia).
    split; [exact Ez|]. unfold eqb_energies. rewrite Ez. cbn [snd]. apply xssr_inside; try assumption; lia.
Qed.
Definition equi_law_readable bm (d : equi) : Prop :=
  shown (eq_NB bm d) (fun nr => shown (eq_NE bm d) (fun ne => forall nb, eq_NET bm d = Ok nb -> 3 + 2 * nr + ne + ne * nb < 2 ^ 32 ->
    returns (eq_NBT bm d) nr /\ returns (eq_INT bm d) nr /\ returns (eq_incidentEnergies bm d) ne
    /\ forall i, 1 <= i <= ne -> (exists e, eq_incidentEnergy bm d i = Ok e)
         /\ exists b, eq_distribution bm d i = Ok b /\ eqb_numberBins b + 1 = nb /\ returns (eqb_energies bm b) nb)).
Lemma eq_shown bm v o : framed v -> SimpleLaws.eq_make bm v = Ok o -> equi_law_readable bm o.
Proof.
  intros F M. pose proof M as M'. unfold SimpleLaws.eq_make in M'. step M' k1 K1. step M' k2 K2. step M' k3 K3. skip_ M' V. unfold eq_generateBlocks in M'.
  rewrite K1 in M'. cbn [bind] in M'. rewrite K2 in M'. cbn [bind] in M'. step M' ii Ei. step M' vs Ev. step M' ds Ed. apply Ok_inj in M'. subst o.
  unfold id_make, cd_make in Ei, Ev. step Ei j1 F1. skip_ Ei V1. apply Ok_inj in Ei. subst ii. step Ev j2 F2. skip_ Ev V2. apply Ok_inj in Ev. subst vs.
  destruct (ixss_size_word _ _ _ _ K1) as (x1 & i1 & X1 & T1 & Q1). destruct (ixss_size_word _ _ _ _ K2) as (x2 & i2 & X2 & T2 & Q2).
  pose proof (to_int_range _ _ T1) as R1. pose proof (to_int_range _ _ T2) as R2. pose proof (xss_deref bm v 1 x1 ltac:(lia) X1) as D1. replace (vbeg v + 1 - 1) with (vbeg v) in D1 by lia.
  assert (S1 : s64 (2 * k1) = 2 * i1) by (subst k1; clear - R1; unfold s64, u64; Z.div_mod_to_equations; lia).
  assert (S2 : s64 k2 = i2) by (subst k2; clear - R2; unfold s64, u64; Z.div_mod_to_equations; lia).
  assert (D2 : deref (buf v) (vbeg v + 2 * i1 + 1) = Ok x2).
  { unfold xss in X2. skip_ X2 C2. rewrite <- X2. f_equal. subst k1. clear - R1. unfold s64, u64. Z.div_mod_to_equations; lia. }
  assert (H1 : exists n, cd_N bm (ColumnData (sub v (vbeg v) (adv (vbeg v) (2 * k1) + 1)) 2) = Ok n).
  { apply (cd_N_some bm _ 2 x1 i1); cbn [sub vbeg vend buf]; try assumption. unfold adv. rewrite S1. lia. }
  assert (H2 : exists n, cd_N bm (ColumnData (sub v (adv (vbeg v) (2 * k1) + 1) (adv (adv (vbeg v) (2 * k1) + 1) k2 + 1)) 1) = Ok n).
  { apply (cd_N_some bm _ 1 x2 i2); cbn [sub vbeg vend buf]; try assumption; unfold adv; rewrite ?S1, ?S2; [lia|exact D2]. }
  apply shown_of; [exact H1|]. intros nr A. apply shown_of; [exact H2|]. intros ne B nb C D. exact (eq_accepts bm v _ nr ne nb F M A B C D).
Qed.

(** * Blocks of cross sections and tables *)

Definition xs_readable bm (v : view) : Prop := shown (xs_numberValues bm v) (fun n => 2 + n < 2 ^ 32 -> returns (xs_crossSections bm v) n).
Definition pp_readable bm (d : photonProduction) : Prop :=
  match d with
  | PPCrossSection v => shown (px_numberValues bm v) (fun n => 3 + n < 2 ^ 32 -> returns (px_crossSections bm v) n)
  | PPMultiplicity t => table_readable bm (pt_tab t)
  end.

Lemma sig_accepts bm v data n o : inside v -> 0 <= n < 2 ^ 32 -> bl_make bm (sig_generateData bm) v data n true = Ok o ->
  bl_n o = n /\ forall i, 1 <= i <= n -> exists d, bl_datum bm o i = Ok d /\ xs_readable bm d.
Proof.
  intros I Hn. apply (bl_accepts 3); try assumption; [lia| |]; unfold sig_generateData.
  - intros l w d M. unfold xs_make in M. step M k K. pose proof (ixss_size_in_buf bm w 2 k ltac:(lia) K). lia.
  - intros l w d W M. pose proof M as M'. unfold xs_make in M'. step M' k' K'. skip_ M' V. apply Ok_inj in M'. subst d. apply shown_of; [eauto|].
    intros k K B. exact (xs_accepts bm w w k W M K B).
Qed.
Lemma swd_accepts bm v data n o : inside v -> 0 <= n < 2 ^ 32 -> bl_make bm (swd_gd bm) v data n true = Ok o ->
  bl_n o = n /\ forall i, 1 <= i <= n -> exists d, bl_datum bm o i = Ok d /\ tp_readable bm d.
Proof.
  intros I Hn. apply (bl_accepts 3); try assumption; [lia| |]; unfold swd_gd.
  - intros l. exact (tp_first bm).
  - intros l w d W M. exact (tp_make_readable bm w d W M).
Qed.
Lemma sigd_accepts bm v data n o : inside v -> 0 <= n < 2 ^ 32 -> bl_make bm (sigd_gd bm) v data n true = Ok o ->
  bl_n o = n /\ forall i, 1 <= i <= n -> exists d, bl_datum bm o i = Ok d /\ table_readable bm d.
Proof.
  intros I Hn. apply (bl_accepts 3); try assumption; [lia| |]; unfold sigd_gd.
  - intros l w d M. pose proof (td_make_first _ _ _ M). lia.
  - intros l w d W M. exact (td_table bm w d W M).
Qed.
Lemma ts_first bm w d : ts_make bm w = Ok d -> -2 <= vbeg w <= len (buf w).
Proof. unfold ts_make, pt_generateBlocks. intros M. step M t T. pose proof (td_make_first _ _ _ T) as P. cbn [sub vbeg buf] in P. lia. Qed.
Lemma sigh_accepts bm v data n o : inside v -> 0 <= n < 2 ^ 32 -> bl_make bm (sigh_generateData bm) v data n true = Ok o ->
  bl_n o = n /\ forall i, 1 <= i <= n -> exists d, bl_datum bm o i = Ok d /\ table_readable bm (pt_tab d).
Proof.
  intros I Hn. apply (bl_accepts 3); try assumption; [lia| |]; unfold sigh_generateData.
  - intros l w d M. pose proof (ts_first bm w d M). lia.
  - intros l w d W M. exact (pt_table bm 2 w d W M).
Qed.
Lemma sigp_accepts bm v data n o : inside v -> 0 <= n < 2 ^ 32 -> bl_make bm (sigp_generateData bm) v data n true = Ok o ->
  bl_n o = n /\ forall i, 1 <= i <= n -> exists d, bl_datum bm o i = Ok d /\ pp_readable bm d.
Proof.
  intros I Hn. apply (bl_accepts 3); try assumption; [lia| |]; unfold sigp_generateData.
  - intros l w d M. step M x X. pose proof (deref_ok _ _ _ X). lia.
  - intros l w d W M. step M x X. step M k K. destruct (k =? 13); step M t T; apply Ok_inj in M; subst d; cbn [pp_readable].
    + pose proof T as T'. unfold px_make in T'. step T' k' K'. skip_ T' V. apply Ok_inj in T'. subst t. apply shown_of; [eauto|].
      intros m Nm B. exact (px_accepts bm w w m W T Nm B).
    + exact (pt_table bm 2 w t W T).
Qed.

(** * Energy distributions: a law behind its header, DLWH and DLW *)

(** What the constructor of a law has looked at.  Not here: the two numbers of laws 2, 3 and 33 and law 66 (only two words
    are verified, wherever IDAT points), law 61 (two of four columns are verified); laws with several distributions. *)
Definition ed_readable bm (o : ed_obj) : Prop :=
  match o with
  | OOutgoing d | OKalbach d => dists_readable bm (fun t => tp_readable bm (snd t)) d
  | OAngleEnergy d => dists_readable bm (fun t => idists_readable bm (fun u => tp_readable bm (snd u)) (snd t)) d
  | OEqui d => equi_law_readable bm d
  | OMaxwell d | OEvaporation d => ev_readable bm d
  | OGeneralEvap d => ge_readable bm d
  | OWatt d => wa_readable bm d
  | _ => True
  end.
Definition en_readable bm (o : en_obj) : Prop := match o with Single d => ed_readable bm d | _ => True end.

Lemma ed_accepts bm law idat emin emax v o : 0 <= vend v <= len (buf v) -> len (buf v) < max_words -> ed_read bm law idat emin emax v = Ok o -> ed_readable bm o.
Proof.
  intros B2 B3 M.
  assert (F0 : forall x, xss bm v 1 = Ok x -> framed v). { intros x X. pose proof (xss_in_buf bm v 1 x ltac:(lia) X). unfold framed. lia. }
  assert (Fs : forall n, ixss_size bm v 1 = Ok n -> framed v). { intros n X. pose proof (ixss_size_in_buf bm v 1 n ltac:(lia) X). unfold framed. lia. }
  assert (Fd : forall D gd l (d : distributionData D), dd_make bm gd l v = Ok d -> framed v).
  { intros D gd l d H. unfold dd_make in H. step H nr E. destruct (word_size _ _ _ _ E) as (x & X & _). exact (F0 x X). }
  assert (Fe : forall d, ev_make bm v = Ok d -> framed v).
  { intros d H. unfold ev_make in H. step H nr E. destruct (word_size _ _ _ _ E) as (x & X & _). exact (F0 x X). }
  assert (Fq : forall d, SimpleLaws.eq_make bm v = Ok d -> framed v). { intros d H. unfold SimpleLaws.eq_make in H. step H nr E. exact (Fs nr E). }
  assert (Fg : forall d, ge_make bm v = Ok d -> framed v). { intros d H. unfold ge_make in H. step H nr E. exact (Fs nr E). }
  assert (Fw : forall d, wa_make bm v = Ok d -> framed v). { intros d H. unfold wa_make in H. step H nr E. exact (Fs nr E). }
  unfold ed_read in M.
  repeat match type of M with context [match ?z with _ => _ end] => destruct z; try discriminate M end.
  all: step M d D; apply Ok_inj in M; subst o; cbn [ed_readable]; try exact I.
  all: lazymatch type of D with
    | SimpleLaws.eq_make _ _ = _ => exact (eq_shown bm v d (Fq d D) D)
    | aed_make _ _ _ = _ => exact (aed_accepts bm _ v d (framed_nearby _ (Fd _ _ _ _ D)) D)
    | og_make _ _ _ = _ => exact (og_accepts bm _ v d (framed_nearby _ (Fd _ _ _ _ D)) D)
    | wa_make _ _ = _ => exact (wa_shown bm v d (Fw d D) D)
    | ge_make _ _ = _ => exact (ge_shown bm v d (Fg d D) D)
    | ev_make _ _ = _ => exact (ev_shown bm v d (Fe d D) D)
    end.
Qed.
Lemma en_accepts bm loc v o : framed v -> en_read bm loc v = Ok o -> en_readable bm o.
Proof.
  intros F M. unfold en_read in M. step M lnw L. destruct (lnw =? 0).
  - step M law W. step M idat E1. step M nr E2. step M ne E3. step M e1 E4. step M e2 E5. step M d D. apply Ok_inj in M. subst o. cbn [en_readable].
    destruct F as (F1 & F2 & F3). exact (ed_accepts bm law idat e1 e2 (sub v _ (vend v)) d F2 F3 D).
  - step M m Em. apply Ok_inj in M. subst o. exact I.
Qed.
Lemma en_first bm loc w d : en_read bm loc w = Ok d -> 0 <= vbeg w <= len (buf w).
Proof. intros M. unfold en_read in M. step M lnw L. step L x X. pose proof (deref_ok _ _ _ X). lia. Qed.
Lemma dh_accepts bm v data n t o : inside v -> vbeg v <= data <= vend v -> 0 <= n < 2 ^ 32 -> dh_make bm v data n t = Ok o ->
  dh_NR o = n /\ forall i, 1 <= i <= n -> exists d, dh_distribution bm o i = Ok d /\ en_readable bm d.
Proof.
  intros I Hd Hn M. unfold dh_make in M. step M b Bb. step M fs Fs. apply Ok_inj in M. subst o. unfold dh_NR, dh_distribution. cbn [dh_block].
  assert (I' := I). destruct I' as [(B1 & B2 & B3) B4]. unfold bl_make in Bb. skip_ Bb V. apply throw_if_ok in V.
  rewrite s64_small in V by (unfold max_words in B3; lia).
  step Bb ds E. apply Ok_inj in Bb. subst b. split; [reflexivity|]. cbn [bl_n bl_data]. unfold bl_generateBlocks in E.
  assert (Da : u64 (data - vbeg v) + 1 = data - vbeg v + 1) by (rewrite u64_small; [reflexivity|unfold max_words in B3; lia]).
  rewrite Da in E.
  (* where the words of an entry begin *)
  assert (G0 : forall k lft w d, iter bm v (data - vbeg v + 1 + k - 1) = Ok lft -> 1 <= n -> dh_generateData bm k w = Ok d -> vbeg w = lft -> buf w = buf v ->
             0 <= lft <= len (buf v)).
  { intros k lft w d K N1 G W1 W2. unfold dh_generateData in G. destruct (Z.eqb_spec k 0) as [-> |Nk].
    - rewrite (iter_inside bm v _ I) in K by lia. apply Ok_inj in K. lia.
    - pose proof (en_first _ _ _ _ G) as P. rewrite W1, W2 in P. exact P. }
  assert (A : Forall (en_readable bm) ds).
  { apply Forall_forall. intros x Hx. destruct (mapM_in _ _ _ _ E Hx) as (i & Ii & Fi). apply seqZ_range in Ii.
    step Fi k K. step Fi lft Le. step Fi rgt Ri. assert (N1 : 1 <= n) by lia.
    assert (P1 := G0 _ _ _ _ Le N1 Fi eq_refl eq_refl).
    unfold dh_generateData in Fi. destruct (k =? 0); [apply Ok_inj in Fi; subst x; exact Logic.I|].
    apply (en_accepts bm k (sub v lft rgt)); [|exact Fi]. unfold framed. cbn [sub vbeg vend buf]. split; [exact P1|]. split; [|exact B3].
    destruct (Z.eqb_spec i n) as [-> |Ne].
    - apply Ok_inj in Ri. lia.
    - step Ri k' K'. destruct (mapM_at _ _ _ (i + 1) E) as (y & Fy & _); [apply Indexed.seqZ_In; lia|].
      rewrite K' in Fy. cbn [bind] in Fy. rewrite Ri in Fy. cbn [bind] in Fy. step Fy r' Rr. exact (G0 _ _ _ _ Ri N1 Fy eq_refl eq_refl). }
  intros i Hi. unfold bl_datum, bl_verify. cbn [bl_n bl_data]. rewrite (u64_small i) by lia. rewrite check_verifyIndex by lia. cbn [bind].
  destruct (Indexed.at_in ds i) as (d & D1); [rewrite (Indexed.mapM_count _ _ _ _ (proj1 Hn) E); lia|lia|].
  exists d. split; [exact D1|]. exact (at_Forall _ _ _ _ A D1).
Qed.

(** An iterator depends on its index only modulo 2^64 *)
Lemma iter_u64 bm v i j : u64 i = u64 j -> iter bm v i = iter bm v j.
Proof. intros E. unfold iter. rewrite E. reflexivity. Qed.

Definition mult_readable bm (m : mult_obj) : Prop :=
  match m with
  | MuNum _ => True
  | MuTab t => table_readable bm t
  end.

Lemma dl_accepts bm v data t nr o : inside v -> 0 <= nr < 2 ^ 32 -> dl_make bm v data t nr = Ok o ->
  dl_NR o = nr /\ forall i, 1 <= i <= nr -> (exists d, dl_distribution bm o i = Ok d /\ en_readable bm d)
    /\ (exists m, dl_multiplicity bm o i = Ok m /\ mult_readable bm m) /\ (exists f, dl_frame bm o i = Ok f).
Proof.
  intros I Hn M. assert (I' := I). destruct I' as [(B1 & B2 & B3) B4]. unfold dl_make in M. skip_ M V. clear V. unfold dl_generateBlocks in M. step M rs E.
  destruct (Z.ltb_spec (len (ty_frames t)) nr) as [|Lf]; [discriminate|]. apply Ok_inj in M. subst o. split; [reflexivity|].
  assert (A : Forall (fun p => en_readable bm (fst p) /\ mult_readable bm (snd p)) rs).
  { apply Forall_forall. intros [d m] Hx. destruct (mapM_in _ _ _ _ E Hx) as (i & Ii & Fi). apply seqZ_range in Ii. cbn [fst snd].
    unfold dl_one in Fi. step Fi k K. skip_ Fi Nk. step Fi m' M'. step Fi lft Le. step Fi rgt Ri. step Fi d' D'. step Fi m0 M0.
    pose proof (en_first _ _ _ _ D') as P1. cbn [sub vbeg buf] in P1.
    assert (Rb : 0 <= rgt <= len (buf v)).
    { destruct (Z.eqb_spec i nr) as [-> |Ne].
      - apply Ok_inj in Ri. lia.
      - destruct (mapM_at _ _ _ (i + 1) E) as (y & Fy & _); [apply Indexed.seqZ_In; lia|]. unfold dl_one in Fy.
        step Fy k2 K2. skip_ Fy Nk2. step Fy m2 M2. step Fy lft2 Le2. step Fy rgt2 Ri2. step Fy d2 D2. step Fy m3 M3.
        assert (m3 = m') by congruence. subst m3. pose proof (en_first _ _ _ _ D2) as P2. cbn [sub vbeg buf] in P2.
        destruct (Z.ltb_spec m' 100).
        + step Ri l L. rewrite L in K2. cbn [bind] in K2. apply Ok_inj in K2. subst k2.
          rewrite (iter_u64 bm v _ (nr + 1 + u64 l - 1)) in Ri by (unfold u64; Z.div_mod_to_equations; lia). assert (rgt = lft2) by congruence. subst. exact P2.
        + destruct (Z.ltb_spec 100 m').
          * step Fy ml ML. step Fy tm TM. unfold td_make in TM. step TM n1 N1. destruct (word_size _ _ _ _ N1) as (x & X & _).
            pose proof (xss_in_buf _ _ 1 x ltac:(lia) X) as P3. cbn [sub vbeg buf] in P3. assert (rgt = ml) by congruence. lia.
          * assert (m' = 100) by lia. subst m'. apply iter_value in Ri; [|lia].
            destruct (mapM_at _ _ _ nr E) as (z & Fz & _); [apply Indexed.seqZ_In; lia|]. unfold dl_one in Fz. step Fz k3 K3. step K3 n3 N3. unfold dl_LDLW_ in N3.
            skip_ N3 C3. unfold ixss in N3. step N3 x X. pose proof (xss_in_buf _ _ nr x ltac:(lia) X). lia. }
    assert (F : framed (sub v lft rgt)) by (unfold framed; cbn [sub vbeg vend buf]; lia).
    destruct (Z.ltb_spec 100 m0).
    - step Fi ml ML. step Fi tm TM. apply Ok_inj in Fi. injection Fi as <- <-. split; [exact (en_accepts _ _ _ _ F D')|]. cbn [mult_readable].
      assert (F' : framed (sub v ml lft)).
      { pose proof TM as TM'. unfold td_make in TM'. step TM' n1 N1. destruct (word_size _ _ _ _ N1) as (x & X & _).
        pose proof (xss_in_buf _ _ 1 x ltac:(lia) X) as P3. cbn [sub vbeg buf] in P3. unfold framed. cbn [sub vbeg vend buf]. lia. }
      exact (td_table bm _ tm (framed_nearby _ F') TM).
    - apply Ok_inj in Fi. injection Fi as <- <-. split; [exact (en_accepts _ _ _ _ F D')|exact Logic.I]. }
  pose proof (Indexed.mapM_count _ _ _ _ (proj1 Hn) E) as Lr.
  intros i Hi. unfold dl_distribution, dl_multiplicity, dl_frame, bl_verify. cbn [dl_nr dl_data dl_mults dl_frames].
  rewrite (u64_small i) by lia. rewrite check_verifyIndex by lia. cbn [bind].
  assert (A1 : Forall (en_readable bm) (map fst rs)) by (apply Forall_map; eapply Forall_impl; [|exact A]; intros a [Q _]; exact Q).
  assert (A2 : Forall (mult_readable bm) (map snd rs)) by (apply Forall_map; eapply Forall_impl; [|exact A]; intros a [_ Q]; exact Q).
  split; [|split].
  - destruct (Indexed.at_in (map fst rs) i) as (d & D1); [unfold len in *; rewrite map_length; lia|lia|]. exists d. split; [exact D1|exact (at_Forall _ _ _ _ A1 D1)].
  - destruct (Indexed.at_in (map snd rs) i) as (d & D1); [unfold len in *; rewrite map_length; lia|lia|]. exists d. split; [exact D1|exact (at_Forall _ _ _ _ A2 D1)].
  - destruct (Indexed.at_in (firstn (Z.to_nat nr) (ty_frames t)) i) as (d & D1); [unfold len in *; rewrite firstn_length; lia|lia|]. exists d. exact D1.
Qed.
