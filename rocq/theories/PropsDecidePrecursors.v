(** C50, continued: delayed neutron precursors (BDD). *)
From Coq Require Import ZArith Bool List Lia.
From Coq Require Import ZifyBool ZifyNat.
From Verif Require Import PropLemmasBasic Truncated NuBlock Indexed Accepted Agree Decide PropsDecide DecideMore PropsDecideAtomic PropsDecideProbability.
Import ListNotations.
Open Scope Z_scope.

(** * Tables of which the words of the values may be missing *)

(** The end may lie behind the vector. *)
Definition ranged (v : view) : Prop := 0 <= vbeg v <= vend v /\ vend v < 2 ^ 40.

Section Reading.
  Variables (bm : build) (v : view) (i p z : Z).
  Hypotheses (I : ranged v) (H : 1 <= i <= size v) (P : p = vbeg v + i - 1) (W : holds (buf v) p z) (Z0 : 0 <= z < 2 ^ 31).
  Lemma open_word : xss bm v i = deref (buf v) p.
  Proof.
    destruct I as [I1 I2]. unfold size in *. unfold xss. rewrite (u64_small i) by lia. unfold vlen. rewrite (u64_small (vend v - vbeg v)) by lia.
    unfold verifyIndex, throw_if. rewrite s64_small by lia. replace (vbeg v + (i - 1)) with p by lia.
    destruct (debug bm); [|reflexivity]. destruct ((i <? 1) || _) eqn:E; [lia|]. reflexivity.
  Qed.
  Lemma open_round : (x <- xss bm v i ;; round_to_size x) = Ok z.
  Proof. rewrite open_word. destruct W as (w & -> & Hw). cbn [bind]. apply round_whole; [exact Hw|lia]. Qed.
  Lemma open_size : ixss_size bm v i = Ok z.
  Proof. unfold ixss_size, ixss. rewrite open_word. destruct W as (w & -> & Hw). cbn [bind]. rewrite (to_int_whole _ _ Hw) by lia. cbn [bind]. rewrite u64_small by lia. reflexivity. Qed.
End Reading.

Lemma open_cd v nc n : ranged v -> 0 <= nc -> 0 <= n < 2 ^ 31 -> holds (buf v) (vbeg v) n -> 1 + n * nc <= size v -> cd_make v nc = Ok (ColumnData v nc).
Proof.
  intros [I1 I2] Hc Hn W L. unfold size in *. assert (0 <= n * nc) by nia.
  unfold cd_make, vempty. destruct (Z.eqb_spec (vbeg v) (vend v)); [lia|]. destruct W as (w & E & Hw). rewrite E. cbn [bind].
  rewrite (trunc_whole _ _ Hw) by lia. cbn [bind]. unfold cd_verifySize. rewrite (u64_small (vend v - vbeg v)), (u64_small (1 + n * nc)) by lia.
  unfold throw_if. destruct (negb _ && _) eqn:X; [lia|reflexivity].
Qed.
Lemma open_td bm v nr ne : ranged v -> 0 <= nr < 2 ^ 29 -> 0 <= ne < 2 ^ 29 -> holds (buf v) (vbeg v) nr -> holds (buf v) (vbeg v + 2 * nr + 1) ne -> 2 + 2 * nr + 2 * ne <= size v ->
  td_make bm v = Ok (table_of_ v nr ne).
Proof.
  intros I Hr He W1 W2 L. pose proof I as [I1 I2].
  assert (R1 : ranged (sub v (vbeg v) (vbeg v + 2 * nr + 1))) by (unfold ranged, sub, size in *; cbn [vbeg vend]; lia).
  assert (R2 : ranged (sub v (vbeg v + 2 * nr + 1) (vbeg v + 2 * nr + 1 + 2 * ne + 1))) by (unfold ranged, sub, size in *; cbn [vbeg vend]; lia).
  unfold td_make. rewrite (open_round bm v 1 (vbeg v) nr I) by (try exact W1; lia). cbn [bind].
  rewrite (open_round bm v (1 + 2 * nr + 1) (vbeg v + 2 * nr + 1) ne I) by (try exact W2; lia). cbn [bind].
  rewrite u32_small by lia. unfold verify_at_least, throw_if. rewrite s64_small by lia. unfold size in L. destruct (Z.ltb_spec (vend v - vbeg v) (2 + 2 * nr + 2 * ne)); [lia|]. cbn [bind].
  unfold td_generateBlocks. fold (size v) in L.
  rewrite (open_size bm v 1 (vbeg v) nr I) by (try exact W1; unfold size; lia). cbn [bind].
  rewrite (open_size bm v (1 + 2 * nr + 1) (vbeg v + 2 * nr + 1) ne I) by (try exact W2; unfold size; lia). cbn [bind].
  unfold adv. rewrite !s64_small by lia. unfold id_make.
  rewrite (open_cd _ 2 nr R1) by (try exact W1; try lia; rewrite sub_size; lia). cbn [bind].
  rewrite (open_cd _ 2 ne R2) by (try exact W2; try lia; rewrite sub_size; lia). reflexivity.
Qed.

(** * The groups *)

Section Groups.
  Context (v : view) (n : Z) (nr ne start : Z -> Z).
  Hypothesis I : inside v.
  Hypothesis Hn : 0 <= n < 2 ^ 32.
  Hypothesis B : forall i, 1 <= i <= n -> 0 <= nr i < 2 ^ 29 /\ 0 <= ne i < 2 ^ 29.
  Hypothesis S1 : start 1 = 1.
  Hypothesis S : forall i, 1 <= i <= n -> start (i + 1) = start i + 3 + 2 * nr i + 2 * ne i.
  Hypothesis C1 : forall i, 1 <= i <= n -> states v (start i + 1) (nr i).
  Hypothesis C2 : forall i, 1 <= i <= n -> states v (start i + 2 + 2 * nr i) (ne i).

  Lemma start_mono i k : 1 <= i -> i + Z.of_nat k <= n + 1 -> start i <= start (i + Z.of_nat k).
  Proof.
    intros Hi. induction k as [|k IH]; intros Hk; [replace (i + Z.of_nat 0) with i by lia; lia|].
    replace (i + Z.of_nat (Datatypes.S k)) with ((i + Z.of_nat k) + 1) by lia. rewrite S by lia. pose proof (B (i + Z.of_nat k) ltac:(lia)). lia.
  Qed.
  Lemma start_le i j : 1 <= i <= j -> j <= n + 1 -> start i <= start j.
  Proof. intros H1 H2. replace j with (i + Z.of_nat (Z.to_nat (j - i))) by lia. apply start_mono; lia. Qed.
  Lemma start_pos i : 1 <= i <= n + 1 -> 1 <= start i.
  Proof. intros H. rewrite <- S1. apply start_le; lia. Qed.

  Definition group (i : Z) : view := sub v (vbeg v + start i - 1) (vbeg v + start (i + 1) - 1).
  Definition datum (i : Z) : precursorData :=
    PrecursorData i (PrefixedTabulated (group i) (table_of_ (sub (group i) (vbeg (group i) + 1) (vend (group i))) (nr i) (ne i))).
  Lemma group_make bm i : 1 <= i <= n -> start i + 2 + 2 * nr i <= size v ->
    ixss_size bm v (start i + 1) = Ok (nr i) /\ ixss_size bm v (start i + 1 + 2 * nr i + 1) = Ok (ne i) /\ dp_make bm (group i) i = Ok (datum i).
  Proof.
    intros Hi L. pose proof (start_pos i ltac:(lia)) as P. pose proof (B i Hi) as [B1 B2]. pose proof (S i Hi) as E. pose proof (size_bound v I) as SB. pose proof I as [(F1 & F2 & F3) F4].
    assert (W1 := states_holds v _ _ I (C1 i Hi) ltac:(lia)). assert (W2 := states_holds v _ _ I (C2 i Hi) ltac:(lia)).
    split; [apply (read_size bm v (start i + 1) _ (nr i) I ltac:(lia) eq_refl W1); lia|]. split.
    { replace (start i + 1 + 2 * nr i + 1) with (start i + 2 + 2 * nr i) by lia. apply (read_size bm v (start i + 2 + 2 * nr i) _ (ne i) I ltac:(lia) eq_refl W2); lia. }
    unfold dp_make, pt_generateBlocks. rewrite (open_td bm (sub (group i) (vbeg (group i) + 1) (vend (group i))) (nr i) (ne i)); [reflexivity| | | | | |]; try assumption.
    - unfold ranged, group, sub, max_words in *. cbn [vbeg vend]. lia.
    - unfold group, sub. cbn [vbeg vend buf]. replace (vbeg v + start i - 1 + 1) with (vbeg v + (start i + 1) - 1) by lia. exact W1.
    - unfold group, sub. cbn [vbeg vend buf]. replace (vbeg v + start i - 1 + 1 + 2 * nr i + 1) with (vbeg v + (start i + 2 + 2 * nr i) - 1) by lia. exact W2.
    - unfold group, sub, size. cbn [vbeg vend]. lia.
  Qed.
  Lemma loop_ok bm k : forall i, 1 <= i -> i + Z.of_nat k = n + 1 -> (forall j, i <= j <= n -> start j + 2 + 2 * nr j <= size v) ->
    bd_loop bm v (vbeg v + start i - 1) (start i) i k = Ok (map datum (seqZ i k)).
  Proof.
    pose proof (size_bound v I) as SB. pose proof I as [(F1 & F2 & F3) F4]. unfold max_words in *.
    induction k as [|k IH]; intros i Hi Hk L; [reflexivity|]. cbn [bd_loop seqZ map]. destruct (group_make bm i ltac:(lia) (L i ltac:(lia))) as (E1 & E2 & E3).
    pose proof (start_pos i ltac:(lia)). pose proof (B i ltac:(lia)). pose proof (L i ltac:(lia)). pose proof (S i ltac:(lia)) as E.
    rewrite E1. cbn [bind]. rewrite E2. cbn [bind]. cbv zeta. rewrite u64_small by lia. replace (start i + (2 + 2 * nr i + 2 * ne i + 1)) with (start (i + 1)) by lia.
    rewrite adv_small by lia. replace (vbeg v + (start (i + 1) - 1)) with (vbeg v + start (i + 1) - 1) by lia. fold (group i). rewrite E3. cbn [bind].
    rewrite IH; [reflexivity|lia|lia|]. intros j Hj. apply L. lia.
  Qed.
  Lemma loop_short k : forall i, 1 <= i -> i + Z.of_nat k = n + 1 -> (0 < k)%nat -> start i < 2 ^ 34 -> size v < start n + 2 + 2 * nr n ->
    exists e, bd_loop Debug v (vbeg v + start i - 1) (start i) i k = Throw e.
  Proof.
    pose proof (size_bound v I) as SB. pose proof I as [(F1 & F2 & F3) F4]. unfold max_words in *.
    induction k as [|k IH]; intros i Hi Hk K0 Hs N; [lia|]. pose proof (start_pos i ltac:(lia)) as P. pose proof (B i ltac:(lia)) as [B1 B2]. pose proof (S i ltac:(lia)) as E. cbn [bd_loop].
    destruct (Z.ltb_spec (size v) (start i + 1)) as [L1|L1].
    { unfold ixss_size at 1, ixss. rewrite xss_short by (assumption || lia). eexists. reflexivity. }
    assert (W1 := states_holds v _ _ I (C1 i ltac:(lia)) ltac:(lia)). rewrite (read_size Debug v (start i + 1) _ (nr i) I ltac:(lia) eq_refl W1) by lia. cbn [bind].
    destruct (Z.ltb_spec (size v) (start i + 2 + 2 * nr i)) as [L2|L2].
    { unfold ixss_size, ixss. rewrite xss_short by (assumption || lia). eexists. reflexivity. }
    destruct (group_make Debug i ltac:(lia) L2) as (_ & E2 & E3). rewrite E2. cbn [bind]. cbv zeta. rewrite u64_small by lia.
    replace (start i + (2 + 2 * nr i + 2 * ne i + 1)) with (start (i + 1)) by lia.
    rewrite adv_small by lia. replace (vbeg v + (start (i + 1) - 1)) with (vbeg v + start (i + 1) - 1) by lia. fold (group i). rewrite E3. cbn [bind].
    destruct k as [|k]; [replace i with n in * by lia; lia|]. destruct (IH (i + 1) ltac:(lia) ltac:(lia) ltac:(lia) ltac:(lia) N) as (e & X). rewrite X. eexists. reflexivity.
  Qed.
  Lemma datum_shows bm i : 1 <= i <= n -> start (i + 1) <= size v + 1 -> table_shows bm (pt_tab (dp_tab (datum i))) (nr i) (ne i).
  Proof.
    intros Hi L. pose proof (start_pos i ltac:(lia)) as P. pose proof (B i Hi) as [B1 B2]. pose proof (S i Hi) as E. pose proof (size_bound v I) as SB. pose proof I as [(F1 & F2 & F3) F4].
    destruct (group_make bm i Hi ltac:(lia)) as (_ & _ & E3). unfold dp_make, pt_generateBlocks in E3.
    set (w := sub (group i) (vbeg (group i) + 1) (vend (group i))) in *. destruct (td_make bm w) as [t|e|] eqn:M; cbn [bind] in E3; try discriminate. apply Ok_inj in E3.
    assert (Iw : inside w) by (unfold w, group, sub, inside, framed, size in *; cbn [buf vbeg vend]; lia).
    assert (W1 := states_holds v _ _ I (C1 i Hi) ltac:(lia)). assert (W2 := states_holds v _ _ I (C2 i Hi) ltac:(lia)).
    destruct (td_enough w (nr i) (ne i) Iw B1 B2) as [M' N'].
    - unfold w, group, sub. cbn [vbeg vend buf]. replace (vbeg v + start i - 1 + 1) with (vbeg v + (start i + 1) - 1) by lia. exact W1.
    - unfold w, group, sub. cbn [vbeg vend buf]. replace (vbeg v + start i - 1 + 1 + 2 * nr i + 1) with (vbeg v + (start i + 2 + 2 * nr i) - 1) by lia. exact W2.
    - unfold w, group, sub, size. cbn [vbeg vend]. lia.
    - destruct (N' bm) as [N1 N2]. exact (table_shows_of bm w _ (nr i) (ne i) (framed_nearby w (proj1 Iw)) B1 B2 (M' bm) N1 N2).
  Qed.
End Groups.

(** Group [i] states [nr i] interpolation regions and [ne i] energies; the first group starts at the first word, each next group right behind the group before it.
    The words of the values of the last group are not asked for. *)
Theorem C50_block_BDD v n (nr ne start : Z -> Z) : inside v -> 0 <= n < 2 ^ 32 -> (forall i, 1 <= i <= n -> 0 <= nr i < 2 ^ 29 /\ 0 <= ne i < 2 ^ 29) ->
  start 1 = 1 -> (forall i, 1 <= i <= n -> start (i + 1) = start i + 3 + 2 * nr i + 2 * ne i) ->
  (forall i, 1 <= i <= n -> states v (start i + 1) (nr i)) -> (forall i, 1 <= i <= n -> states v (start i + 2 + 2 * nr i) (ne i)) ->
  decides (0 < n -> start n + 2 + 2 * nr n <= size v) (fun bm => bd_make bm v n)
    (fun bm o => bd_NPCR o = n /\ forall i, 1 <= i <= n -> exists d w, bd_precursorGroupData bm o i = Ok d /\ dp_number d = i /\ dp_DEC bm d = Ok w /\ word v (start i) = Some w
       /\ (start (i + 1) <= size v + 1 -> table_shows bm (pt_tab (dp_tab d)) (nr i) (ne i))).
Proof.
  intros I Hn B S1 S C1 C2. pose proof (size_bound v I) as SB. pose proof I as [(F1 & F2 & F3) F4]. unfold max_words in *. split.
  - intros Q bm. pose proof (loop_ok v n nr ne start I Hn B S1 S C1 C2 bm (Z.to_nat n) 1 ltac:(lia) ltac:(lia)) as L. 
    assert (A : forall j, 1 <= j <= n -> start j + 2 + 2 * nr j <= size v).
    { intros j Hj. destruct (Z.eq_dec j n) as [-> |]; [apply Q; lia|]. pose proof (start_le v n nr ne start Hn B S C1 C2 (j + 1) n ltac:(lia) ltac:(lia)). rewrite S in * by lia. specialize (B j ltac:(lia)) as Bj. specialize (B n ltac:(lia)) as Bn. specialize (Q ltac:(lia)). lia. }
    specialize (L A). rewrite S1 in L. replace (vbeg v + 1 - 1) with (vbeg v) in L by lia. unfold bd_make, bd_generateBlocks. rewrite L. cbn [bind].
    eexists. split; [reflexivity|]. split; [reflexivity|]. intros i Hi. exists (datum v nr ne start i).
    pose proof (start_pos v n nr ne start Hn B S1 S C1 C2 i ltac:(lia)) as P. pose proof (A i Hi) as Ai. pose proof (B i Hi) as Bi. pose proof (S i Hi) as Si.
    destruct (xss_reads bm v (start i) I ltac:(lia)) as (w & X & Y). exists w. split; [|split; [reflexivity|split; [|split; [exact Y|exact (datum_shows v n nr ne start I Hn B S1 S C1 C2 bm i Hi)]]]].
    + unfold bd_precursorGroupData. cbn [bd_npcr bd_data]. unfold check. rewrite (verify_in 1 n i) by lia. unfold at_. rewrite u64_small by lia.
      assert (G : forall k a m, (k < m)%nat -> nth_error (map (datum v nr ne start) (seqZ a m)) k = Some (datum v nr ne start (a + Z.of_nat k))).
      { induction k as [|k IH]; intros a [|m] H; try lia; cbn [seqZ map nth_error]; [do 2 f_equal; lia|]. rewrite IH by lia. do 2 f_equal. lia. }
      rewrite G by lia. replace (1 + Z.of_nat (Z.to_nat (i - 1))) with i by lia. destruct (debug bm); reflexivity.
    + unfold dp_DEC, datum. cbn [dp_tab pt_v]. rewrite (open_word bm (group v start i) 1 (vbeg v + start i - 1)).
      * rewrite <- X. rewrite (xss_word bm v (start i) I) by lia. reflexivity.
      * unfold ranged, group, sub. cbn [vbeg vend]. lia.
      * unfold group. rewrite sub_size. lia.
      * unfold group, sub. cbn [vbeg]. lia.
  - intros N. assert (0 < n /\ size v < start n + 2 + 2 * nr n) as [N1 N2] by lia.
    destruct (loop_short v n nr ne start I Hn B S1 S C1 C2 (Z.to_nat n) 1 ltac:(lia) ltac:(lia) ltac:(lia) ltac:(lia) N2) as (e & L).
    rewrite S1 in L. replace (vbeg v + 1 - 1) with (vbeg v) in L by lia. unfold bd_make, bd_generateBlocks. rewrite L. eexists. reflexivity.
Qed.
Print Assumptions C50_block_BDD.

(** Two groups of one energy each without interpolation regions; the second one without its two values. *)
Definition two_groups : view := own (map dbl [7; 0; 1; 3; 4; 8; 0; 1]).
Lemma two_groups_states : inside two_groups /\ size two_groups = 8 /\ (forall i, 1 <= i <= 2 -> states two_groups (5 * (i - 1) + 1 + 1) 0)
  /\ (forall i, 1 <= i <= 2 -> states two_groups (5 * (i - 1) + 1 + 2 + 2 * 0) 1).
Proof.
  split; [apply own_inside; reflexivity|]. split; [reflexivity|]. split; intros i Hi; assert (E : i = 1 \/ i = 2) by lia; destruct E as [-> | ->]; stated.
Qed.
Example block_BDD_met : exists o d, bd_make Debug two_groups 2 = Ok o /\ bd_NPCR o = 2 /\ bd_precursorGroupData Debug o 1 = Ok d /\ dp_DEC Debug d = Ok (dbl 7) /\ table_shows Debug (pt_tab (dp_tab d)) 0 1.
Proof.
  destruct two_groups_states as (I & Z8 & C1 & C2).
  destruct (proj1 (C50_block_BDD two_groups 2 (fun _ => 0) (fun _ => 1) (fun i => 5 * (i - 1) + 1) I ltac:(lia) ltac:(intros; lia) eq_refl ltac:(intros; cbv beta; lia) C1 C2) ltac:(intros; cbv beta; lia) Debug) as (o & E & N & G).
  destruct (G 1 ltac:(lia)) as (d & w & E1 & _ & E2 & W & T). exists o, d. split; [exact E|]. split; [exact N|]. split; [exact E1|]. split.
  - rewrite E2. f_equal. vm_compute in W. injection W as <-. reflexivity.
  - apply T. cbv beta. lia.
Qed.
(** The second group is accepted, also in Debug, and reading its energies is undefined. *)
Theorem C50_precursor_words_refuted : inside two_groups /\ states two_groups 7 0 /\ states two_groups 8 1
  /\ exists o d, bd_make Debug two_groups 2 = Ok o /\ bd_precursorGroupData Debug o 2 = Ok d /\ td_N Debug (pt_tab (dp_tab d)) = Ok 1 /\ td_x Debug (pt_tab (dp_tab d)) = UB.
Proof.
  destruct two_groups_states as (I & _ & C1 & C2). split; [exact I|]. split; [exact (C1 2 ltac:(lia))|]. split; [exact (C2 2 ltac:(lia))|].
  eexists. eexists. split; [reflexivity|]. split; [reflexivity|]. split; reflexivity.
Qed.
Print Assumptions C50_precursor_words_refuted.
