(** C50, continued: which words the columns and tables show. *)
From Coq Require Import ZArith Bool List Lia.
From Coq Require Import ZifyBool ZifyNat.
From Verif Require Import PropLemmasBasic Truncated NuBlock Indexed Accepted Agree Decide PropsDecide DecideMore PropsDecideProbability.
Import ListNotations.
Open Scope Z_scope.

(** The list [l] is the [n] words of [v] behind its first [k]. *)
Definition words_of (v : view) (k n : Z) (l : list double) : Prop := len l = n /\ forall j, 1 <= j <= n -> nth_error l (Z.to_nat (j - 1)) = word v (k + j).

Lemma xssr_words bm v k n : inside v -> 0 <= k -> 0 <= n -> k + n <= size v -> exists l, xssr bm v (k + 1) n = Ok l /\ words_of v k n l.
Proof.
  intros I Hk Hn L. pose proof (size_bound v I) as SB. pose proof I as [(F1 & F2 & F3) F4]. unfold max_words in *.
  destruct (xssr_inside bm v (k + 1) n I ltac:(lia) Hn ltac:(unfold size in *; lia)) as (l & E & Ln). exists l. split; [exact E|]. split; [exact Ln|].
  intros j Hj. destruct (nth_error l (Z.to_nat (j - 1))) as [x|] eqn:Nl; [|apply nth_error_None in Nl; unfold len in Ln; lia].
  pose proof (words_agree0 bm v (k + 1) n l _ x ltac:(lia) ltac:(lia) E Nl) as A. replace (k + 1 + Z.of_nat (Z.to_nat (j - 1))) with (k + j) in A by lia.
  destruct (xss_reads bm v (k + j) I ltac:(lia)) as (w & X & Y). rewrite Y. f_equal. unfold same_one in A. rewrite X in A. destruct A as [A | A]; [apply Ok_inj in A; congruence|].
  destruct A as [_ A]. discriminate.
Qed.
Lemma words_of_sub v b e k n l : 0 <= b -> vbeg v + b + k + n <= e -> e <= vend v -> 0 <= k -> words_of (sub v (vbeg v + b) e) k n l -> words_of v (b + k) n l.
Proof.
  intros Hb He Hv Hk [L W]. split; [exact L|]. intros j Hj. rewrite W by exact Hj. rewrite (word_part v (vbeg v + b) e b (k + j)) by lia. f_equal. lia.
Qed.

(** Column [i] of a block of columns of [n] values is the [n] words behind the count and the columns before it. *)
Theorem C50_column_words v nc n : inside v -> 0 <= nc -> states v 1 n -> 0 <= n < 2 ^ 31 -> 1 <= size v -> 1 + n * nc <= size v ->
  forall bm, exists o, cd_make v nc = Ok o /\ forall i, 1 <= i <= nc -> exists l, cd_column bm o i = Ok l /\ words_of v (1 + (i - 1) * n) n l.
Proof.
  intros I Hc S Hn L0 L bm. pose proof (size_bound v I) as SB. assert (W : holds (buf v) (vbeg v) n).
  { replace (vbeg v) with (vbeg v + 1 - 1) by lia. apply states_holds; auto; lia. }
  destruct (cd_enough v nc n I Hc Hn W ltac:(lia) L) as [M N]. exists (ColumnData v nc). split; [exact M|]. intros i Hi.
  unfold cd_column. rewrite N. cbn [bind cd_v]. replace (2 + (i - 1) * n) with (1 + (i - 1) * n + 1) by lia. apply xssr_words; [exact I|nia|lia|nia].
Qed.
Print Assumptions C50_column_words.

(** A table of [nr] interpolation regions and [ne] values: the boundaries and types of the regions are behind the first count, the values behind the second one. *)
Theorem C50_table_words v nr ne : inside v -> 0 <= nr < 2 ^ 29 -> 0 <= ne < 2 ^ 29 -> states v 1 nr -> states v (2 + 2 * nr) ne -> 2 + 2 * nr + 2 * ne <= size v ->
  forall bm, exists t nbt int x y, td_make bm v = Ok t
    /\ td_NBT bm t = Ok nbt /\ words_of v 1 nr nbt /\ td_INT bm t = Ok int /\ words_of v (1 + nr) nr int
    /\ td_x bm t = Ok x /\ words_of v (2 + 2 * nr) ne x /\ td_y bm t = Ok y /\ words_of v (2 + 2 * nr + ne) ne y.
Proof.
  intros I Hr He S1 S2 L bm. pose proof (size_bound v I) as SB. pose proof I as [(F1 & F2 & F3) F4].
  assert (W1 := states_holds v 1 nr I S1 ltac:(lia)). assert (W2 := states_holds v (2 + 2 * nr) ne I S2 ltac:(lia)).
  replace (vbeg v + 1 - 1) with (vbeg v) in W1 by lia. replace (vbeg v + (2 + 2 * nr) - 1) with (vbeg v + 2 * nr + 1) in W2 by lia.
  destruct (td_enough v nr ne I Hr He W1 W2 L) as [M N]. destruct (N bm) as [N1 N2].
  pose (v1 := sub v (vbeg v) (vbeg v + 2 * nr + 1)). pose (v2 := sub v (vbeg v + 2 * nr + 1) (vbeg v + 2 * nr + 1 + 2 * ne + 1)).
  assert (I1 : inside v1) by (unfold size in L; apply sub_inside; auto; lia).
  assert (I2 : inside v2) by (unfold size in L; apply sub_inside; auto; lia).
  assert (Z1 : size v1 = 1 + 2 * nr) by (unfold v1; rewrite sub_size; lia). assert (Z2 : size v2 = 1 + 2 * ne) by (unfold v2; rewrite sub_size; lia).
  unfold td_NB, id_NB, td_N, table_of_ in N1, N2. cbn [td_interp td_data] in N1, N2. fold v1 in N1. fold v2 in N2.
  assert (C : forall w n i, inside w -> 0 <= n -> cd_N bm (ColumnData w 2) = Ok n -> size w = 1 + 2 * n -> 1 <= i <= 2 -> exists l, cd_column bm (ColumnData w 2) i = Ok l /\ words_of w (1 + (i - 1) * n) n l).
  { intros w n i Iw Hn Nw Zw Hi. unfold cd_column. rewrite Nw. cbn [bind cd_v]. replace (2 + (i - 1) * n) with (1 + (i - 1) * n + 1) by lia. apply xssr_words; [exact Iw|nia|lia|nia]. }
  destruct (C v1 nr 1 I1 ltac:(lia) N1 Z1 ltac:(lia)) as (nbt & A1 & B1). destruct (C v1 nr 2 I1 ltac:(lia) N1 Z1 ltac:(lia)) as (int & A2 & B2).
  destruct (C v2 ne 1 I2 ltac:(lia) N2 Z2 ltac:(lia)) as (x & A3 & B3). destruct (C v2 ne 2 I2 ltac:(lia) N2 Z2 ltac:(lia)) as (y & A4 & B4).
  exists (table_of_ v nr ne), nbt, int, x, y. split; [exact (M bm)|].
  assert (P1 : forall k l, 0 <= k -> k + nr <= 1 + 2 * nr -> words_of v1 k nr l -> words_of v k nr l).
  { intros k l Hk Hl X. replace k with (0 + k) by lia. apply (words_of_sub v 0 (vbeg v + 2 * nr + 1)); unfold size in *; try lia. replace (vbeg v + 0) with (vbeg v) by lia. exact X. }
  assert (P2 : forall k l, 0 <= k -> k + ne <= 1 + 2 * ne -> words_of v2 k ne l -> words_of v (1 + 2 * nr + k) ne l).
  { intros k l Hk Hl X. apply (words_of_sub v (1 + 2 * nr) (vbeg v + 2 * nr + 1 + 2 * ne + 1)); unfold size in *; try lia. replace (vbeg v + (1 + 2 * nr)) with (vbeg v + 2 * nr + 1) by lia. exact X. }
  split; [exact A1|]. split; [apply P1; [lia|lia|]; replace (1 + (1 - 1) * nr) with 1 in B1 by lia; exact B1|].
  split; [exact A2|]. split; [apply P1; [lia|lia|]; replace (1 + (2 - 1) * nr) with (1 + nr) in B2 by lia; exact B2|].
  split; [exact A3|]. split.
  - replace (2 + 2 * nr) with (1 + 2 * nr + 1) by lia. apply P2; [lia|lia|]. replace (1 + (1 - 1) * ne) with 1 in B3 by lia. exact B3.
  - split; [exact A4|]. replace (2 + 2 * nr + ne) with (1 + 2 * nr + (1 + ne)) by lia. apply P2; [lia|lia|]. replace (1 + (2 - 1) * ne) with (1 + ne) in B4 by lia. exact B4.
Qed.
Print Assumptions C50_table_words.

(** One region up to 2 of type 5, and the values 1, 2 with 3, 4; two words of something else behind them *)
Example table_words_met : let v := own (map dbl [1; 2; 5; 2; 1; 2; 3; 4; 9; 9]) in
  exists t, td_make Debug v = Ok t /\ td_NBT Debug t = Ok (map dbl [2]) /\ td_INT Debug t = Ok (map dbl [5]) /\ td_x Debug t = Ok (map dbl [1; 2]) /\ td_y Debug t = Ok (map dbl [3; 4]).
Proof.
  intros v. assert (I : inside v) by (apply own_inside; reflexivity).
  destruct (C50_table_words v 1 2 I ltac:(lia) ltac:(lia) ltac:(stated) ltac:(stated) ltac:(vm_compute; discriminate) Debug) as (t & nbt & int & x & y & E & E1 & [L1 B1] & E2 & [L2 B2] & E3 & [L3 B3] & E4 & [L4 B4]).
  exists t. split; [exact E|]. rewrite E1, E2, E3, E4.
  destruct nbt as [|a1 [|? ?]]; try (unfold len in L1; cbn [length] in L1; lia). destruct int as [|a2 [|? ?]]; try (unfold len in L2; cbn [length] in L2; lia).
  destruct x as [|a3 [|a4 [|? ?]]]; try (unfold len in L3; cbn [length] in L3; lia). destruct y as [|a5 [|a6 [|? ?]]]; try (unfold len in L4; cbn [length] in L4; lia).
  pose proof (B1 1 ltac:(lia)) as H1. pose proof (B2 1 ltac:(lia)) as H2. pose proof (B3 1 ltac:(lia)) as H3. pose proof (B3 2 ltac:(lia)) as H4. pose proof (B4 1 ltac:(lia)) as H5. pose proof (B4 2 ltac:(lia)) as H6.
  vm_compute in H1, H2, H3, H4, H5, H6. injection H1 as ->. injection H2 as ->. injection H3 as ->. injection H4 as ->. injection H5 as ->. injection H6 as ->. repeat split.
Qed.

(** The arrays behind the counts of a cross section, a photon cross section, a tabulated distribution, heating, a polynomial multiplicity and yields. *)
Theorem C50_component_words v n : inside v -> 0 <= n < 2 ^ 29 -> forall bm : build,
  (states v 2 n -> 2 + n <= size v -> xs_make bm v = Ok v /\ exists l, xs_crossSections bm v = Ok l /\ words_of v 2 n l)
  /\ (states v 3 n -> 3 + n <= size v -> px_make bm v = Ok v /\ exists l, px_crossSections bm v = Ok l /\ words_of v 3 n l)
  /\ (states v 2 n -> 2 + 3 * n <= size v -> tp_make bm v = Ok v /\ exists x p c, tp_values bm v = Ok x /\ words_of v 2 n x /\ tp_pdf bm v = Ok p /\ words_of v (2 + n) n p /\ tp_cdf bm v = Ok c /\ words_of v (2 + 2 * n) n c)
  /\ (states v 2 n -> 2 + 2 * n <= size v -> hpd_make bm v = Ok v /\ exists p h, hpd_totalProduction bm v = Ok p /\ words_of v 2 n p /\ hpd_heating bm v = Ok h /\ words_of v (2 + n) n h)
  /\ (states v 1 1 -> states v 2 n -> 2 + n <= size v -> pf_make bm v = Ok v /\ exists c, pf_C bm v = Ok c /\ words_of v 2 n c)
  /\ (states v 1 n -> 1 + n <= size v -> yp_make bm v = Ok v /\ exists m, yp_MTs bm v = Ok m /\ words_of v 1 n m).
Proof.
  intros I Hn bm. pose proof (size_bound v I) as SB. pose proof I as [(F1 & F2 & F3) F4].
  assert (R : forall i z, states v i z -> 1 <= i <= size v -> 0 <= z < 2 ^ 31 -> ixss_size bm v i = Ok z /\ (x <- xss bm v i ;; trunc_to_size x) = Ok z /\ ixss bm v i = Ok z).
  { intros i z S Hi Hz. assert (W := states_holds v i z I S Hi). split; [apply (read_size bm v i _ z I Hi eq_refl W Hz)|]. split; [apply (read_trunc bm v i _ z I Hi eq_refl W Hz)|apply (read_int bm v i _ z I Hi eq_refl W Hz)]. }
  assert (X : forall i k, i = k + 1 -> 0 <= k -> k + n <= size v -> exists l, xssr bm v i n = Ok l /\ words_of v k n l).
  { intros i k -> Hk L. apply xssr_words; [exact I|exact Hk|lia|exact L]. }
  split; [|split; [|split; [|split; [|split]]]].
  - intros S L. destruct (R 2 n S ltac:(lia) ltac:(lia)) as (E & _). split.
    + unfold xs_make, xs_numberValues. rewrite E. cbn [bind]. rewrite u32_small by lia. rewrite verify_enough by (assumption || lia). reflexivity.
    + unfold xs_crossSections, xs_numberValues. rewrite E. cbn [bind]. apply X; lia.
  - intros S L. destruct (R 3 n S ltac:(lia) ltac:(lia)) as (_ & E & _). split.
    + unfold px_make, px_numberValues. rewrite E. cbn [bind]. rewrite u32_small by lia. rewrite verify_enough by (assumption || lia). reflexivity.
    + unfold px_crossSections, px_numberValues. rewrite E. cbn [bind]. apply X; lia.
  - intros S L. destruct (R 2 n S ltac:(lia) ltac:(lia)) as (E & _). split.
    + unfold tp_make, tp_numberValues. rewrite E. cbn [bind]. rewrite u32_small by lia. rewrite verify_enough by (assumption || lia). reflexivity.
    + unfold tp_values, tp_pdf, tp_cdf, tp_numberValues. rewrite E. cbn [bind].
      destruct (X 3 2 ltac:(lia) ltac:(lia) ltac:(lia)) as (a & A1 & A2). destruct (X (3 + n) (2 + n) ltac:(lia) ltac:(lia) ltac:(lia)) as (b & B1 & B2). destruct (X (3 + 2 * n) (2 + 2 * n) ltac:(lia) ltac:(lia) ltac:(lia)) as (c & C1 & C2).
      exists a, b, c. auto 10.
  - intros S L. destruct (R 2 n S ltac:(lia) ltac:(lia)) as (_ & E & _). split.
    + unfold hpd_make, hpd_numberValues. rewrite E. cbn [bind]. rewrite (u32_small n) by lia. rewrite u32_small by lia. rewrite verify_enough by (assumption || lia). reflexivity.
    + unfold hpd_totalProduction, hpd_heating, hpd_numberValues. rewrite E. cbn [bind].
      destruct (X 3 2 ltac:(lia) ltac:(lia) ltac:(lia)) as (a & A1 & A2). destruct (X (3 + n) (2 + n) ltac:(lia) ltac:(lia) ltac:(lia)) as (b & B1 & B2). exists a, b. auto 10.
  - intros S1 S L. destruct (R 2 n S ltac:(lia) ltac:(lia)) as (E & _). destruct (R 1 1 S1 ltac:(lia) ltac:(lia)) as (_ & _ & E1). split.
    + unfold pf_make, pf_NC, pf_LNU. rewrite E. cbn [bind]. rewrite (u32_small n) by lia. rewrite u32_small by lia. rewrite verify_enough by (assumption || lia). cbn [bind]. rewrite E1. reflexivity.
    + unfold pf_C, pf_NC. rewrite E. cbn [bind]. apply X; lia.
  - intros S L. destruct (R 1 n S ltac:(lia) ltac:(lia)) as (E & E2 & E3). split.
    + unfold yp_make, yp_NYP. destruct (vempty v) eqn:Ev; [unfold vempty, size in *; lia|]. rewrite E3. cbn [bind]. rewrite (u32_small n) by lia. rewrite u32_small by lia.
      destruct (n =? 0); [reflexivity|]. rewrite verify_enough by (assumption || lia). reflexivity.
    + unfold yp_MTs, yp_NYP. destruct (vempty v) eqn:Ev; [unfold vempty, size in *; lia|]. rewrite E3. cbn [bind]. rewrite (u32_small n) by lia. apply X; lia.
Qed.
Print Assumptions C50_component_words.

(** Two cross sections from the seventh energy on, and a word of something else *)
Example component_words_met : let v := own (map dbl [7; 2; 10; 20; 9]) in inside v /\ states v 2 2 /\ 2 + 2 <= size v
  /\ xs_make Debug v = Ok v /\ xs_crossSections Debug v = Ok (map dbl [10; 20]).
Proof.
  intros v. assert (I : inside v) by (apply own_inside; reflexivity). assert (S : states v 2 2) by stated. assert (L : 2 + 2 <= size v) by (vm_compute; discriminate).
  split; [exact I|]. split; [exact S|]. split; [exact L|]. destruct (proj1 (C50_component_words v 2 I ltac:(lia) Debug) S L) as (M & l & E & Ln & W). split; [exact M|]. rewrite E.
  destruct l as [|a [|b [|? ?]]]; try (unfold len in Ln; cbn [length] in Ln; lia). pose proof (W 1 ltac:(lia)) as H1. pose proof (W 2 ltac:(lia)) as H2.
  vm_compute in H1, H2. injection H1 as ->. injection H2 as ->. reflexivity.
Qed.
