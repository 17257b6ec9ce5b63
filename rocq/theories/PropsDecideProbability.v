(** C50, continued: probability tables (UNR). *)
From Coq Require Import ZArith Bool List Lia.
From Coq Require Import ZifyBool ZifyNat.
From Verif Require Import PropLemmasBasic Truncated NuBlock Indexed Accepted Agree Decide PropsDecide DecideMore PropsDecideAtomic.
Import ListNotations.
Open Scope Z_scope.

(** Table [i] of [m] bins of a block that states [n] tables: its words are the 6 m words behind the incident energies and the tables before it. *)
Definition table_words (v : view) (n m i : Z) : view := sub v (vbeg v + 6 + n + 6 * m * (i - 1)) (vbeg v + 6 + n + 6 * m * i).

Section Loop.
  Context (v : view) (n m : Z).
  Hypothesis I : inside v.
  Hypothesis Hn : 0 <= n < 2 ^ 27.
  Hypothesis Hm : 0 <= m < 2 ^ 27.
  Definition table_at (bm : build) (i : Z) : outcome ptable := e <- xss bm v (6 + i) ;; Ok (PTable (ArrayData (table_words v n m i) m 6) e).
  Lemma table_make i e : tb_make (table_words v n m i) e m = Ok (PTable (ArrayData (table_words v n m i) m 6) e).
  Proof.
    unfold tb_make, ad_make, ad_verifySize, table_words, sub. cbn [vbeg vend buf]. rewrite (u32_small m) by lia. rewrite u32_small by lia.
    rewrite s64_small by lia. unfold throw_if. destruct (Z.ltb_spec (vbeg v + 6 + n + 6 * m * i - (vbeg v + 6 + n + 6 * m * (i - 1))) (m * 6)); [lia|]. reflexivity.
  Qed.
  Lemma loop_is bm k : forall i, un_loop bm v m (vbeg v + 6 + n + 6 * m * (i - 1)) i k = mapM (table_at bm) (seqZ i k).
  Proof.
    induction k as [|k IH]; intros i; [reflexivity|]. cbn [un_loop seqZ mapM]. cbv zeta. rewrite adv_small by lia. unfold table_at at 1.
    destruct (xss bm v (6 + i)) as [e|e|]; cbn [bind]; try reflexivity.
    replace (vbeg v + 6 + n + 6 * m * (i - 1) + 6 * m) with (vbeg v + 6 + n + 6 * m * i) by lia.
    fold (table_words v n m i). rewrite table_make. cbn [bind].
    replace (vbeg v + 6 + n + 6 * m * i) with (vbeg v + 6 + n + 6 * m * ((i + 1) - 1)) by lia. rewrite IH. reflexivity.
  Qed.
End Loop.

Lemma mapM_total {A B} (f : A -> outcome B) l : (forall x, In x l -> exists y, f x = Ok y) -> exists r, mapM f l = Ok r.
Proof.
  intros H. induction l as [|a l IH]; [eexists; reflexivity|]. cbn [mapM]. destruct (H a (or_introl eq_refl)) as [y ->]. destruct (IH (fun x Hx => H x (or_intror Hx))) as [r ->]. eexists. reflexivity.
Qed.
Lemma word_part v b e k i : b = vbeg v + k -> 0 <= k -> 1 <= i <= e - b -> e <= vend v -> word (sub v b e) i = word v (k + i).
Proof.
  intros -> Hk Hi He. unfold word, size, sub. cbn [buf vbeg vend]. destruct ((1 <=? i) && (i <=? e - (vbeg v + k))) eqn:C; [|lia].
  destruct ((1 <=? k + i) && (k + i <=? vend v - vbeg v)) eqn:C'; [|lia]. f_equal. lia.
Qed.
Lemma un_word_ok bm v k z : inside v -> 1 <= k <= size v -> states v k z -> 0 <= z < 2 ^ 31 -> un_word bm v k = Ok z.
Proof.
  intros I Hk S Hz. unfold un_word. pose proof (size_bound v I). assert (E : vempty v = false) by (unfold vempty, size in *; destruct (Z.eqb_spec (vbeg v) (vend v)); [lia|reflexivity]).
  rewrite E. unfold ixss. rewrite (xss_word bm v k I Hk). destruct (states_holds v k z I S Hk) as (w & -> & W). cbn [bind]. apply to_int_whole; [exact W|lia].
Qed.

Lemma xss_reads bm v i : inside v -> 1 <= i <= size v -> exists w, xss bm v i = Ok w /\ word v i = Some w.
Proof.
  intros I Hi. rewrite (xss_word bm v i I Hi). pose proof I as [(F1 & F2 & F3) F4]. unfold size in *.
  destruct (deref_inside (buf v) (vbeg v + i - 1)) as [e E]; [lia|]. exists e. split; [exact E|].
  unfold word, size. destruct ((1 <=? i) && (i <=? vend v - vbeg v)) eqn:C; [|lia].
  unfold deref in E. destruct (Z.leb_spec 0 (vbeg v + i - 1)); [|lia]. destruct (nth_error _ _) as [x|]; [|discriminate]. apply Ok_inj in E. congruence.
Qed.
(** The values of the arrays are the words, array after array. *)
Theorem C50_array_words v n m i j : inside v -> 0 <= n -> 0 <= m < 2 ^ 32 -> n * m < 2 ^ 32 -> n * m <= size v -> 1 <= i <= m -> 1 <= j <= n ->
  forall bm, exists o w, ad_make v n m = Ok o /\ ad_dvalue bm o i j = Ok w /\ word v ((i - 1) * n + j) = Some w.
Proof.
  intros I Hn Hm B L Hi Hj bm. destruct (proj1 (C50_array_data v n m I Hn Hm B) L bm) as (o & E & _ & D). destruct (D i j Hi Hj) as [w W].
  exists o, w. split; [exact E|]. split; [exact W|]. unfold ad_make in E. destruct (ad_verifySize v n m); cbn [bind] in E; try discriminate. apply Ok_inj in E. subst o.
  destruct (xss_reads bm v ((i - 1) * n + j) I) as (w' & X & Y); [nia|]. unfold ad_dvalue in W. cbn [ad_v ad_n] in W. rewrite X in W.
  destruct (check _ _); cbn [bind] in W; try discriminate. apply Ok_inj in W. congruence.
Qed.
Print Assumptions C50_array_words.

(** The block states [n] tables of [m] bins. *)
Theorem C50_block_UNR v n m : inside v -> 1 <= size v -> states v 1 n -> states v 2 m -> 0 <= n < 2 ^ 27 -> 0 <= m < 2 ^ 27 ->
  decides (2 <= size v /\ (0 < n -> 6 + n <= size v)) (fun bm => un_make bm v)
    (fun bm o => un_N bm (un_v o) = Ok n /\ un_M bm (un_v o) = Ok m /\ len (un_data o) = n
       /\ (0 < n -> returns (un_energies bm (un_v o)) n)
       /\ forall i, 1 <= i <= n -> exists t, un_probabilityTable bm o i = Ok t /\ tb_numberBins t = m /\ word v (6 + i) = Some (tb_incidentEnergy t)
            /\ (6 + n + 6 * m * i <= size v -> arrays bm m 6 (tb_a t)
                  /\ forall k j, 1 <= k <= 6 -> 1 <= j <= m -> exists w, ad_dvalue bm (tb_a t) k j = Ok w /\ word v (6 + n + 6 * m * (i - 1) + m * (k - 1) + j) = Some w)).
Proof.
  intros I L1 S1 S2 Hn Hm. pose proof (size_bound v I) as B. split.
  - intros [L2 L3] bm.
    pose proof (un_word_ok bm v 1 n I ltac:(lia) S1 ltac:(lia)) as W1. pose proof (un_word_ok bm v 2 m I ltac:(lia) S2 ltac:(lia)) as W2.
    assert (N : un_N bm v = Ok n) by (unfold un_N; rewrite W1; cbn [bind]; rewrite u32_small by lia; reflexivity).
    assert (M : un_M bm v = Ok m) by (unfold un_M; rewrite W2; cbn [bind]; rewrite u32_small by lia; reflexivity).
    assert (W : forall i, 1 <= i <= n -> exists e, xss bm v (6 + i) = Ok e /\ word v (6 + i) = Some e).
    { intros i Hi. apply xss_reads; [exact I|lia]. }
    assert (A : exists ts, mapM (table_at v n m bm) (seqZ 1 (Z.to_nat n)) = Ok ts).
    { apply mapM_total. intros i Hi. apply in_seqZ in Hi. destruct (W i ltac:(lia)) as (e & E & _). unfold table_at. rewrite E. eexists. reflexivity. }
    destruct A as [ts A]. pose proof (mapM_length _ _ _ A) as L. rewrite seqZ_length in L.
    exists (Unr v ts). unfold un_make, un_generateBlocks. rewrite M. cbn [bind]. rewrite N. cbn [bind].
    replace (vbeg v + 6 + n) with (vbeg v + 6 + n + 6 * m * (1 - 1)) by lia. rewrite loop_is by assumption. rewrite A. cbn [bind]. split; [reflexivity|].
    cbn [un_v un_data]. split; [exact N|]. split; [exact M|]. split; [unfold len; lia|]. split.
    + intros Hp. unfold un_energies. rewrite N. cbn [bind]. apply xssr_inside; [exact I|lia|lia|unfold size in *; lia].
    + intros i Hi. destruct (at_in ts i) as [t T]; [unfold len; lia|lia|]. exists t.
      assert (Hi64 : 1 <= i < 2 ^ 64) by lia. pose proof (at_mapM _ _ _ _ _ Hi64 A T) as E. destruct (W i Hi) as (e & X & Y). unfold table_at in E. rewrite X in E. cbn [bind] in E. apply Ok_inj in E. subst t.
      split; [|split; [reflexivity|split; [exact Y|]]].
      * unfold un_probabilityTable. cbn [un_v un_data]. rewrite N. cbn [bind]. rewrite (verify_in 1 n i) by lia. rewrite T. destruct (debug bm); reflexivity.
      * intros L4. assert (I' : inside (table_words v n m i)) by (apply sub_inside; [exact I|nia|unfold size in *; lia]).
        assert (Z' : m * 6 <= size (table_words v n m i)) by (unfold table_words; rewrite sub_size; lia).
        destruct (proj1 (array_decides (table_words v n m i) m 6 I' ltac:(lia) ltac:(lia) ltac:(lia)) Z' bm) as (a & E & P).
        assert (E' := E). unfold ad_make in E'. destruct (ad_verifySize _ _ _); cbn [bind] in E'; try discriminate. apply Ok_inj in E'. subst a. split; [exact P|].
        intros k j Hk Hj. destruct (C50_array_words (table_words v n m i) m 6 k j I' ltac:(lia) ltac:(lia) ltac:(lia) Z' Hk Hj bm) as (a & w & E1 & E2 & E3).
        rewrite E in E1. apply Ok_inj in E1. subst a. exists w. split; [exact E2|]. rewrite <- E3.
        replace (6 + n + 6 * m * (i - 1) + m * (k - 1) + j) with ((6 + n + 6 * m * (i - 1)) + ((k - 1) * m + j)) by lia.
        symmetry. apply word_part; unfold table_words, size, sub in *; cbn [buf vbeg vend] in *; nia.
  - intros N. unfold un_make, un_generateBlocks. destruct (Z.ltb_spec (size v) 2) as [L2|L2].
    + unfold un_M, un_word. assert (E : vempty v = false) by (unfold vempty, size in *; destruct (Z.eqb_spec (vbeg v) (vend v)); [lia|reflexivity]).
      rewrite E. unfold ixss. rewrite xss_short by (try assumption; lia). eexists. reflexivity.
    + assert (0 < n /\ size v < 6 + n) as [Hp L3] by lia. 
      assert (W1 : un_word Debug v 1 = Ok n) by (apply un_word_ok; try assumption; lia). assert (W2 : un_word Debug v 2 = Ok m) by (apply un_word_ok; try assumption; lia).
      unfold un_M, un_N. rewrite W1, W2. cbn [bind]. rewrite !u32_small by lia.
      replace (vbeg v + 6 + n) with (vbeg v + 6 + n + 6 * m * (1 - 1)) by lia. rewrite loop_is by assumption.
      destruct (mapM_settles (table_at v n m Debug) (seqZ 1 (Z.to_nat n))) as [(r & R & Q)|[e R]].
      * intros i Hi. apply in_seqZ in Hi. unfold table_at. destruct (Z.ltb_spec (size v) (6 + i)).
        -- right. rewrite xss_short by (try assumption; lia). eexists. reflexivity.
        -- left. rewrite (xss_word Debug v (6 + i) I) by lia. pose proof I as [(F1 & F2 & F3) F4]. unfold size in *.
           destruct (deref_inside (buf v) (vbeg v + (6 + i) - 1)) as [w ->]; [lia|]. eexists. reflexivity.
      * exfalso. destruct (Q n) as [b E]; [apply in_seqZ; lia|]. unfold table_at in E. rewrite xss_short in E by (try assumption; lia). discriminate.
      * rewrite R. eexists. reflexivity.
Qed.
Print Assumptions C50_block_UNR.

(** Two tables of one bin each, with incident energies 1 and 2. *)
Example block_UNR_met : let v := own (map dbl [2; 1; 2; 0; 0; 0; 1; 2; 11; 12; 13; 14; 15; 16; 21; 22; 23; 24; 25; 26]) in
  exists o, un_make Debug v = Ok o /\ len (un_data o) = 2
    /\ exists t, un_probabilityTable Debug o 2 = Ok t /\ tb_incidentEnergy t = dbl 2 /\ arrays Debug 1 6 (tb_a t) /\ ad_dvalue Debug (tb_a t) 3 1 = Ok (dbl 23).
Proof.
  intros v. assert (I : inside v) by (unfold inside, framed, max_words; vm_compute; repeat split; discriminate).
  assert (S : size v = 20) by reflexivity.
  assert (S1 : states v 1 2) by stated.
  assert (S2 : states v 2 1) by stated.
  destruct (proj1 (C50_block_UNR v 2 1 I ltac:(lia) S1 S2 ltac:(lia) ltac:(lia)) ltac:(lia) Debug) as (o & E & _ & _ & L & _ & T).
  exists o. split; [exact E|]. split; [exact L|]. destruct (T 2 ltac:(lia)) as (t & Et & _ & W & A). exists t. split; [exact Et|]. split.
  - assert (W' : word v (6 + 2) = Some (dbl 2)) by reflexivity. congruence.
  - destruct (A ltac:(lia)) as [A1 A2]. split; [exact A1|]. destruct (A2 3 1 ltac:(lia) ltac:(lia)) as (w & -> & X). vm_compute in X. f_equal. symmetry. vm_compute. congruence.
Qed.
(** A block of one table of one bin that ends with the incident energy is accepted; reading the table is undefined, also in Debug. *)
Theorem C50_probability_words_refuted : let v := own (map dbl [1; 1; 2; 0; 0; 0; 5]) in
  inside v /\ states v 1 1 /\ states v 2 1 /\ exists o t, un_make Debug v = Ok o /\ un_probabilityTable Debug o 1 = Ok t /\ tb_numberBins t = 1 /\ tb_total Debug t = UB.
Proof.
  intros v. split; [unfold inside, framed, max_words; vm_compute; repeat split; discriminate|].
  split; [stated|]. split; [stated|].
  eexists. eexists. split; [reflexivity|]. split; [reflexivity|]. split; reflexivity.
Qed.
Print Assumptions C50_probability_words_refuted.
