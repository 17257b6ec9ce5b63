(** C50, continued: energy distributions of one law and the blocks that hold them.  Specification and lemmas. *)
From Coq Require Import ZArith Bool List Lia.
From Coq Require Import ZifyBool ZifyNat.
From Verif Require Import PropLemmasBasic Truncated NuBlock AtomicBlocks ElectronBlocks ThermalBlocks Accepted Decide PropsDecide DecideMore PropsDecideMore PropsDecideThermal DlwBlock.
Import ListNotations.
Open Scope Z_scope.

(** * Specification *)

(** Laws 4 and 44, and 67: the columns of each distribution are there. *)
Definition columns_show bm (q : tq_obj) (n : Z) : Prop :=
  tp_numberValues bm (snd q) = Ok n /\ returns (tp_values bm (snd q)) n /\ returns (tp_pdf bm (snd q)) n /\ returns (tp_cdf bm (snd q)) n.

(** [law_data v idat lo hi law fits shows]: what the words [v] of the data of a law state about the counts and locators in them, when these data
    fit ([fits]), and what the distribution then shows ([shows]); [idat] is the locator of the data, [lo] and [hi] are the incident energies the
    law is valid for. *)
Inductive law_data (v : view) (idat : Z) (lo hi : double) : Z -> Prop -> (build -> ed_obj -> Prop) -> Prop :=
| Law_two law K : In (law, K) [(2, ODiscrete); (3, OLevel); (33, OTwoBody)] ->
    law_data v idat lo hi law (2 <= size v)
      (fun bm o => exists d, o = K d /\ two_emin d = lo /\ two_emax d = hi /\ (exists x, two_C1 bm d = Ok x) /\ exists x, two_C2 bm d = Ok x)
| Law_body : law_data v idat lo hi 66 (2 <= size v) (fun bm o => exists d, o = ONBody d /\ two_emin d = lo /\ two_emax d = hi)
| Law_bins nr ne nb : 0 <= nr < 2 ^ 29 -> 0 <= ne < 2 ^ 29 -> 0 <= nb < 2 ^ 29 -> 3 + 2 * nr + ne + ne * nb < 2 ^ 32 ->
    states v 1 nr -> states v (2 + 2 * nr) ne -> states v (3 + 2 * nr + ne) nb ->
    law_data v idat lo hi 1 (3 + 2 * nr + ne + ne * nb <= size v)
      (fun bm o => exists d, o = OEqui d /\ eq_NB bm d = Ok nr /\ eq_NE bm d = Ok ne /\ eq_NET bm d = Ok nb
         /\ forall i, 1 <= i <= ne -> exists b, eq_distribution bm d i = Ok b /\ returns (eqb_energies bm b) nb)
| Law_general nr ne nb : 0 <= nr < 2 ^ 29 -> 0 <= ne < 2 ^ 29 -> 0 <= nb < 2 ^ 29 ->
    states v 1 nr -> states v (2 + 2 * nr) ne -> states v (3 + 2 * nr + 2 * ne) nb ->
    law_data v idat lo hi 5 (3 + 2 * nr + 2 * ne + nb <= size v)
      (fun bm o => exists d, o = OGeneralEvap d /\ table_shows bm (ge_tab d) nr ne /\ ge_NET bm d = Ok nb /\ returns (ge_bins bm d) nb)
| Law_evaporation law K nr ne : In (law, K) [(7, OMaxwell); (9, OEvaporation)] -> 0 <= nr < 2 ^ 29 -> 0 <= ne < 2 ^ 29 ->
    states v 1 nr -> states v (2 + 2 * nr) ne ->
    law_data v idat lo hi law (3 + 2 * nr + 2 * ne <= size v)
      (fun bm o => exists d, o = K d /\ table_shows bm (ev_tab d) nr ne /\ exists u, ev_U d = Ok u)
| Law_watt na n nb m : 0 <= na < 2 ^ 29 -> 0 <= n < 2 ^ 29 -> 0 <= nb < 2 ^ 29 -> 0 <= m < 2 ^ 29 ->
    states v 1 na -> states v (2 + 2 * na) n -> states v (3 + 2 * na + 2 * n) nb -> states v (4 + 2 * na + 2 * n + 2 * nb) m ->
    law_data v idat lo hi 11 (5 + 2 * na + 2 * n + 2 * nb + 2 * m <= size v)
      (fun bm o => exists d, o = OWatt d /\ table_shows bm (wa_a d) na n /\ table_shows bm (wa_b d) nb m /\ exists u, wa_U d = Ok u)
| Law_outgoing law K nr ne (loc cnt : Z -> Z) : In (law, K) [(4, OOutgoing); (44, OKalbach)] -> 0 <= nr < 2 ^ 29 -> 0 <= ne < 2 ^ 29 -> 1 <= idat < 2 ^ 31 ->
    states v 1 nr -> states v (2 + 2 * nr) ne -> (forall i, 1 <= i <= ne -> states v (2 + 2 * nr + ne + i) (loc i) /\ 0 <= loc i < 2 ^ 31) ->
    (forall i, 1 <= i <= ne -> states (part v ne (fun k => loc k - idat + 1) i) 2 (cnt i) /\ 0 <= cnt i < 2 ^ 30) ->
    law_data v idat lo hi law (dists_fit v (2 + 2 * nr + 2 * ne) ne (fun k => loc k - idat + 1) (fun i => 2 + 3 * cnt i))
      (fun bm o => exists d, o = K d /\ dd_NB bm d = Ok nr /\ dd_N bm d = Ok ne
         /\ forall i, 1 <= i <= ne -> exists q, dd_datum bm d i = Ok q /\ columns_show bm q (cnt i))
| Law_angle_energy nr ne (loc n : Z -> Z) (loc2 cnt : Z -> Z -> Z) : 0 <= nr < 2 ^ 29 -> 0 <= ne < 2 ^ 29 -> 1 <= idat < 2 ^ 31 ->
    states v 1 nr -> states v (2 + 2 * nr) ne -> (forall i, 1 <= i <= ne -> states v (2 + 2 * nr + ne + i) (loc i) /\ 0 <= loc i < 2 ^ 31) ->
    let first i := part v ne (fun k => loc k - idat + 1) i in
    let start2 i j := loc2 i j - loc i + 1 in
    (forall i, 1 <= i <= ne -> states (first i) 2 (n i) /\ 0 <= n i < 2 ^ 29
       /\ forall j, 1 <= j <= n i -> states (first i) (2 + n i + j) (loc2 i j) /\ 0 <= loc2 i j < 2 ^ 31
            /\ states (part (first i) (n i) (start2 i) j) 2 (cnt i j) /\ 0 <= cnt i j < 2 ^ 30) ->
    law_data v idat lo hi 67
      (dists_ok v (2 + 2 * nr + 2 * ne) ne (fun k => loc k - idat + 1)
         (fun i => dists_fit (first i) (2 + 2 * n i) (n i) (start2 i) (fun j => 2 + 3 * cnt i j)))
      (fun bm o => exists d, o = OAngleEnergy d /\ dd_NB bm d = Ok nr /\ dd_N bm d = Ok ne
         /\ forall i, 1 <= i <= ne -> exists a, dd_datum bm d i = Ok a /\ di_N bm (snd a) = Ok (n i)
              /\ forall j, 1 <= j <= n i -> exists q, di_datum bm (snd a) j = Ok q /\ columns_show bm q (cnt i j))
| Law_unknown law : ~ In law [1; 2; 3; 4; 5; 7; 9; 11; 33; 44; 61; 66; 67] -> law_data v idat lo hi law False (fun _ _ => False).

(** [single v locator fits shows]: the words [v] at [locator] are those of one law (LNW = 0), with the words about the validity all there, and the
    data of the law begin in the range or at its end. *)
Definition single (v : view) (locator : Z) (fits : Prop) (shows : build -> ed_obj -> Prop) : Prop :=
  exists law idat nr ne lo hi, 0 <= nr < 2 ^ 29 /\ 1 <= ne < 2 ^ 29 /\ 1 <= law < 2 ^ 15 /\ 0 <= idat < 2 ^ 31
  /\ states v 1 0 /\ states v 2 law /\ states v 3 idat /\ states v 4 nr /\ states v (5 + 2 * nr) ne
  /\ word v (6 + 2 * nr) = Some lo /\ word v (5 + 2 * nr + ne) = Some hi
  /\ locator <= idat <= locator + size v
  /\ law_data (sub v (vbeg v + (idat - locator)) (vend v)) idat lo hi law fits shows.

(** * Lemmas *)

Lemma not_all_stable (n : nat) (Q : Z -> Prop) : (forall i, 1 <= i <= Z.of_nat n -> ~ ~ Q i) -> ~ ~ forall i, 1 <= i <= Z.of_nat n -> Q i.
Proof.
  induction n as [|n IH]; intros H; [intros N; apply N; lia|].
  intros N. apply (IH ltac:(intros i Hi; apply H; lia)). intros A. apply (H (Z.of_nat (S n)) ltac:(lia)). intros B. apply N.
  intros i Hi. destruct (Z.eq_dec i (Z.of_nat (S n))) as [-> |E]; [exact B|apply A; lia].
Qed.

Lemma mapM_decides {B} (f : build -> Z -> outcome B) n (ok : Z -> Prop) (P : build -> Z -> B -> Prop) :
  (forall i, 1 <= i <= n -> decides (ok i) (fun bm => f bm i) (fun bm => P bm i)) ->
  decides (forall i, 1 <= i <= n -> ok i) (fun bm => mapM (f bm) (seqZ 1 (Z.to_nat n)))
    (fun bm ds => length ds = Z.to_nat n /\ forall i, 1 <= i <= n -> exists d, nth_error ds (Z.to_nat (i - 1)) = Some d /\ P bm i d).
Proof.
  intros H. split.
  - intros Q bm. destruct (mapM_seq (f bm) (fun k d => P bm (Z.of_nat k + 1) d) (Z.to_nat n) 1 0) as (ds & E & N & R).
    { intros k Hk. destruct (proj1 (H (1 + Z.of_nat k) ltac:(lia)) (Q (1 + Z.of_nat k) ltac:(lia)) bm) as (d & Ed & Pd). exists d. split; [exact Ed|].
      replace (Z.of_nat (0 + k) + 1) with (1 + Z.of_nat k) by lia. exact Pd. }
    exists ds. split; [exact E|]. split; [exact N|]. intros i Hi. destruct (nth_error ds (Z.to_nat (i - 1))) as [d|] eqn:Nd; [|apply nth_error_None in Nd; lia].
    exists d. split; [reflexivity|]. specialize (R _ _ Nd). replace (Z.of_nat (0 + Z.to_nat (i - 1)) + 1) with i in R by lia. exact R.
  - intros N. destruct (mapM_settles (f Debug) (seqZ 1 (Z.to_nat n))) as [(r & _ & Q)|[e R]].
    + intros i Hi. apply in_seqZ in Hi. destruct (decides_settles _ _ _ (H i ltac:(lia))) as [T|(o & E & _)]; [right; exact T|left; eauto].
    + exfalso. apply (not_all_stable (Z.to_nat n) ok).
      * intros i Hi. destruct (decides_settles _ _ _ (H i ltac:(lia))) as [(x & T)|(o & E & W)]; [|exact W].
        destruct (Q i) as [b Eb]; [apply in_seqZ; lia|]. congruence.
      * intros A. apply N. intros i Hi. apply A. lia.
    + exists e. exact R.
Qed.

Lemma decides_needs' {A} v n (m : build -> outcome A) P : needs v n m P -> decides (n <= size v) m P.
Proof. intros [H1 H2]. split; [exact H1|]. intros N. apply H2. lia. Qed.
Lemma decides_into {A B} Q (m : build -> outcome A) (P : build -> A -> Prop) (f : A -> B) (P' : build -> B -> Prop) : (forall bm a, P bm a -> P' bm (f a)) -> decides Q m P ->
  decides Q (fun bm => a <- m bm ;; Ok (f a)) P'.
Proof.
  intros W [H1 H2]. split.
  - intros q bm. destruct (H1 q bm) as (a & -> & Pa). cbn [bind]. eexists. split; [reflexivity|apply W; exact Pa].
  - intros N. destruct (H2 N) as (x & ->). eexists. reflexivity.
Qed.

Lemma law_decides v idat lo hi law fits shows : inside v -> law_data v idat lo hi law fits shows ->
  decides fits (fun bm => ed_read bm law idat lo hi v) shows.
Proof.
  intros I H. destruct H as [law K HK| |nr ne nb B1 B2 B3 B4 S1 S2 S3|nr ne nb B1 B2 B3 S1 S2 S3|law K nr ne HK B1 B2 S1 S2|na n nb m B1 B2 B3 B4 S1 S2 S3 S4|law K nr ne loc cnt HK B1 B2 B3 S1 S2 Hl Hc|nr ne loc n loc2 cnt B1 B2 B3 S1 S2 Hl first start2 Hc|law HL].
  - destruct (C50_given_sizes v I) as (_ & _ & _ & T & _). pose proof (decides_needs' _ _ _ _ (T lo hi)) as D.
    assert (G : forall (bm : build) d, SimpleLaws.two_make v lo hi = Ok d -> two_emin d = lo /\ two_emax d = hi).
    { intros bm d M. unfold SimpleLaws.two_make in M. destruct (verify_at_least v 2) as [x|x|]; cbn [bind] in M; try discriminate M. apply Ok_inj in M. subst d. split; reflexivity. }
    split.
    + intros Q bm. destruct (proj1 D Q bm) as (d & M & C1 & C2). destruct (G bm d M) as [G1 G2].
      exists (K d). split; [|exists d; auto]. destruct HK as [X|[X|[X|[]]]]; injection X as <- <-; cbn [ed_read]; rewrite M; reflexivity.
    + intros N. destruct (proj2 D N) as [e M]. exists e. destruct HK as [X|[X|[X|[]]]]; injection X as <- <-; cbn [ed_read]; rewrite M; reflexivity.
  - destruct (C50_given_sizes v I) as (_ & _ & _ & T & _). pose proof (decides_needs' _ _ _ _ (T lo hi)) as D. cbn [ed_read]. unfold nb_make. split.
    + intros Q bm. destruct (proj1 D Q bm) as (d & M & _). exists (ONBody d). rewrite M. split; [reflexivity|]. exists d. split; [reflexivity|].
      unfold SimpleLaws.two_make in M. destruct (verify_at_least v 2) as [x|x|]; cbn [bind] in M; try discriminate M. apply Ok_inj in M. subst d. split; reflexivity.
    + intros N. destruct (proj2 D N) as [e M]. exists e. rewrite M. reflexivity.
  - pose proof (decides_needs' _ _ _ _ (C50_equiprobable_bins v nr ne nb I B1 B2 B3 B4 S1 S2 S3)) as D. cbn [ed_read]. revert D. apply decides_into.
    intros bm o (X1 & X2 & X3 & _ & _ & _ & X4). exists o. split; [reflexivity|]. split; [exact X1|]. split; [exact X2|]. split; [exact X3|].
    intros i Hi. destruct (X4 i Hi) as (_ & b & Y1 & _ & Y2). exists b. split; assumption.
  - pose proof (decides_needs' _ _ _ _ (C50_general_evaporation_spectra v nr ne nb I B1 B2 B3 S1 S2 S3)) as D. cbn [ed_read]. revert D. apply decides_into.
    intros bm o X. exists o. split; [reflexivity|exact X].
  - pose proof (decides_needs' _ _ _ _ (C50_evaporation_spectra v nr ne I B1 B2 S1 S2)) as D.
    destruct HK as [X|[X|[]]]; injection X as <- <-; cbn [ed_read]; revert D; apply decides_into; intros bm o X; exists o; (split; [reflexivity|exact X]).
  - pose proof (decides_needs' _ _ _ _ (C50_watt_spectra v na n nb m I B1 B2 B3 B4 S1 S2 S3 S4)) as D. cbn [ed_read]. revert D. apply decides_into.
    intros bm o X. exists o. split; [reflexivity|exact X].
  - pose proof (C50_outgoing_energies v nr ne idat loc cnt I B1 B2 B3 S1 S2 Hl Hc) as D.
    assert (D' : decides (dists_fit v (2 + 2 * nr + 2 * ne) ne (fun k => loc k - idat + 1) (fun i => 2 + 3 * cnt i)) (fun bm => og_make bm idat v)
      (fun bm d => dd_NB bm d = Ok nr /\ dd_N bm d = Ok ne /\ forall i, 1 <= i <= ne -> exists q, dd_datum bm d i = Ok q /\ columns_show bm q (cnt i))) by exact D.
    destruct HK as [X|[X|[]]]; injection X as <- <-; cbn [ed_read]; revert D'; apply decides_into; intros bm o X; exists o; (split; [reflexivity|exact X]).
  - pose proof (C50_angle_energy_distributions v nr ne idat loc n loc2 cnt I B1 B2 B3 S1 S2 Hl Hc) as D. cbn [ed_read]. revert D. apply decides_into.
    intros bm o X. exists o. split; [reflexivity|exact X].
  - split; [intros []|]. intros _. exists RuntimeError. unfold ed_read. cbn [In] in HL.
    repeat match goal with |- context [match ?l with _ => _ end] => destruct l; try reflexivity; try (exfalso; apply HL; tauto) end.
Qed.

Lemma to_law w z : whole_number w z -> 0 <= z < 2 ^ 15 -> round_to_law w = Ok z.
Proof. intros [R _] H. unfold round_to_law. rewrite R. destruct ((- 2 ^ 15 <=? z) && (z <? 2 ^ 15)) eqn:E; [reflexivity|lia]. Qed.
Lemma to_u32 w z : whole_number w z -> 0 <= z < 2 ^ 32 -> round_to_u32 w = Ok z.
Proof. intros [R _] H. unfold round_to_u32. rewrite R. destruct ((0 <=? z) && (z <? 2 ^ 32)) eqn:E; [reflexivity|lia]. Qed.
Lemma word_there v i w : inside v -> word v i = Some w -> 1 <= i <= size v /\ deref (buf v) (vbeg v + i - 1) = Ok w.
Proof.
  intros [(F1 & F2 & F3) F4] W. unfold word in W. destruct ((1 <=? i) && (i <=? size v)) eqn:E; [|discriminate]. split; [lia|].
  unfold deref. destruct (Z.leb_spec 0 (vbeg v + i - 1)); [|lia]. rewrite W. reflexivity.
Qed.

Lemma single_decides v locator fits shows : inside v -> 0 <= locator < 2 ^ 31 -> single v locator fits shows ->
  decides fits (fun bm => en_read bm locator v) (fun bm o => exists d, o = Single d /\ shows bm d).
Proof.
  intros I HL (law & idat & nr & ne & lo & hi & B1 & B2 & B3 & B4 & S1 & S2 & S3 & S4 & S5 & W1 & W2 & Hi & LD).
  pose proof (size_bound v I) as SB. destruct (word_there v _ lo I W1) as [L1 E1]. destruct (word_there v _ hi I W2) as [L2 E2].
  pose proof I as [(F1 & F2 & F3) F4].
  assert (In1 : inside (sub v (vbeg v + (idat - locator)) (vend v))) by (unfold size in *; apply Decide.sub_inside; [exact I|lia|lia]).
  pose proof (law_decides _ _ _ _ _ _ _ In1 LD) as D.
  destruct (states_holds v 1 0 I S1 ltac:(lia)) as (w1 & X1 & Y1). destruct (states_holds v 2 law I S2 ltac:(lia)) as (w2 & X2 & Y2).
  destruct (states_holds v 3 idat I S3 ltac:(lia)) as (w3 & X3 & Y3). destruct (states_holds v 4 nr I S4 ltac:(lia)) as (w4 & X4 & Y4).
  destruct (states_holds v (5 + 2 * nr) ne I S5 ltac:(lia)) as (w5 & X5 & Y5).
  assert (M : forall bm, en_read bm locator v = (o <- ed_read bm law idat lo hi (sub v (vbeg v + (idat - locator)) (vend v)) ;; Ok (Single o))).
  { intros bm. unfold max_words in *. unfold en_read. replace (vbeg v) with (vbeg v + 1 - 1) at 1 by lia. rewrite X1. cbn [bind]. rewrite (to_u32 w1 0 Y1) by lia. cbn [bind Z.eqb].
    replace (vbeg v + 1) with (vbeg v + 2 - 1) at 1 by lia. rewrite X2. cbn [bind]. rewrite (to_law w2 law Y2) by lia. cbn [bind].
    replace (vbeg v + 2) with (vbeg v + 3 - 1) at 1 by lia. rewrite X3. cbn [bind]. rewrite (round_whole w3 idat Y3) by lia. cbn [bind].
    replace (vbeg v + 3) with (vbeg v + 4 - 1) at 1 by lia. rewrite X4. cbn [bind]. rewrite (round_whole w4 nr Y4) by lia. cbn [bind].
    assert (A : adv (vbeg v + 3) (2 * nr) = vbeg v + 3 + 2 * nr) by (unfold adv; rewrite s64_small by lia; lia).
    rewrite A. replace (vbeg v + 3 + 2 * nr + 1) with (vbeg v + (5 + 2 * nr) - 1) by lia. rewrite X5. cbn [bind]. rewrite (round_whole w5 ne Y5) by lia. cbn [bind].
    replace (vbeg v + (5 + 2 * nr) - 1 + 1) with (vbeg v + (6 + 2 * nr) - 1) by lia. rewrite E1. cbn [bind].
    assert (A' : adv (vbeg v + (5 + 2 * nr) - 1) ne = vbeg v + (5 + 2 * nr + ne) - 1) by (unfold adv; rewrite s64_small by lia; lia).
    rewrite A', E2. cbn [bind].
    assert (A'' : adv (vbeg v) (idat - locator) = vbeg v + (idat - locator)) by (unfold adv; rewrite s64_small by lia; lia).
    rewrite A''. reflexivity. }
  split.
  - intros Q bm. destruct (proj1 D Q bm) as (d & E & Sd). exists (Single d). rewrite M, E. split; [reflexivity|]. exists d. auto.
  - intros N. destruct (proj2 D N) as [e E]. exists e. rewrite M, E. reflexivity.
Qed.

(** Blocks with locators whose entries have another condition than a number of words. *)
Section Located.
  Context {D : Type} (gd : build -> Z -> view -> outcome D) (v : view) (off n : Z) (loc : Z -> Z) (ok : Z -> Prop) (P : build -> Z -> D -> Prop).
  Hypothesis I : inside v.
  Hypothesis Hoff : 0 <= off <= size v.
  Hypothesis Hn : 0 <= n < 2 ^ 31.
  Hypothesis Hloc : forall i, 1 <= i <= n -> states v i (loc i) /\ 1 <= loc i < 2 ^ 31.
  Hypothesis Hup : forall i, 1 <= i < n -> loc i <= loc (i + 1).
  Hypothesis Hgd : forall i, 1 <= i <= n -> inside (entry v off n loc i) -> decides (ok i) (fun bm => gd bm (loc i) (entry v off n loc i)) (fun bm d => P bm i d).

  Lemma located_lloc bm i : n <= off -> 1 <= i <= n -> bl_LLOC_ bm v n true i = Ok (loc i).
  Proof.
    intros L Hi. unfold bl_LLOC_, check, bl_verify, verifyIndex, throw_if. rewrite (u64_small i) by lia.
    assert (E : (if debug bm then if (i <? 1) || (n <? i) then Throw OutOfRange else Ok tt else Ok tt) = Ok tt).
    { destruct (debug bm); [|reflexivity]. destruct ((i <? 1) || (n <? i)) eqn:E; [lia|reflexivity]. }
    rewrite E. cbn [bind]. destruct (Hloc i Hi) as [S R]. assert (W := states_holds v i (loc i) I S ltac:(lia)).
    rewrite (read_int bm v i _ (loc i) I ltac:(lia) eq_refl W) by lia. cbn [bind]. rewrite u64_small by lia. reflexivity.
  Qed.

  Lemma located_entry bm i : 1 <= i <= n -> (1 <= off + loc i <= size v + 1) -> (i < n -> off + loc (i + 1) <= size v + 1) ->
    at_entry gd v off n loc bm i = gd bm (loc i) (entry v off n loc i) /\ inside (entry v off n loc i).
  Proof.
    intros Hi A B. pose proof I as [(F1 & F2 & F3) F4]. unfold at_entry, entry. rewrite (iter_in v I bm _ A). cbn [bind].
    destruct (Z.eqb_spec i n) as [E|E].
    - cbn [bind]. split; [do 2 f_equal; lia|]. unfold size in A. apply sub_inside; auto; lia.
    - pose proof (Hup i ltac:(lia)). destruct (Hloc i Hi) as [_ R]. rewrite (iter_in v I) by lia. cbn [bind]. split; [do 2 f_equal; lia|]. unfold size in A, B. apply sub_inside; auto; lia.
  Qed.

  Lemma located_blocks bm data : n <= off -> data = vbeg v + off ->
    bl_make bm (gd bm) v data n true = (ds <- mapM (at_entry gd v off n loc bm) (seqZ 1 (Z.to_nat n)) ;; Ok (BlockWL v n true data ds)).
  Proof.
    intros L ->. pose proof (size_bound v I). unfold bl_make, bl_generateBlocks. replace (vbeg v + off - vbeg v) with off by lia. rewrite s64_small by lia.
    unfold throw_if. destruct (Z.ltb_spec off n); [lia|]. cbn [bind].
    rewrite (mapM_same _ (at_entry gd v off n loc bm)); [reflexivity|]. intros i Hi. apply in_seqZ in Hi. assert (Hi' : 1 <= i <= n) by lia.
    cbv zeta. rewrite (u64_small off) by lia. rewrite (located_lloc bm i L Hi'). cbn [bind]. unfold at_entry.
    replace (off + 1 + loc i - 1) with (off + loc i) by lia. destruct (Z.eqb_spec i n) as [X|X]; [reflexivity|].
    rewrite (located_lloc bm (i + 1) L) by lia. cbn [bind]. replace (off + 1 + loc (i + 1) - 1) with (off + loc (i + 1)) by lia. reflexivity.
  Qed.

  Lemma located_decides : decides (n <= off /\ forall i, 1 <= i <= n -> 1 <= off + loc i <= size v + 1 /\ (i < n -> off + loc (i + 1) <= size v + 1) /\ ok i)
    (fun bm => bl_make bm (gd bm) v (vbeg v + off) n true)
    (fun bm o => bl_n o = n /\ forall i, 1 <= i <= n -> exists d, bl_datum bm o i = Ok d /\ P bm i d).
  Proof.
    pose proof (size_bound v I) as SB. destruct (Z.leb_spec n off) as [L|L].
    2: { split; [intros [L' _]; lia|]. intros _. unfold bl_make. replace (vbeg v + off - vbeg v) with off by lia. rewrite s64_small by lia. unfold throw_if.
         destruct (Z.ltb_spec off n); [|lia]. eexists. reflexivity. }
    assert (E : forall bm, bl_make bm (gd bm) v (vbeg v + off) n true = (ds <- mapM (at_entry gd v off n loc bm) (seqZ 1 (Z.to_nat n)) ;; Ok (BlockWL v n true (vbeg v + off) ds))).
    { intros bm. apply located_blocks; [exact L|reflexivity]. }
    assert (D1 : forall i, 1 <= i <= n -> decides (1 <= off + loc i <= size v + 1 /\ (i < n -> off + loc (i + 1) <= size v + 1) /\ ok i) (fun bm => at_entry gd v off n loc bm i) (fun bm => P bm i)).
    { intros i Hi. destruct (Hloc i Hi) as [_ R]. destruct (Z.leb_spec (off + loc i) (size v + 1)) as [A|A].
      2: { split; [intros [X _]; lia|]. intros _. unfold at_entry. rewrite (iter_out v I) by lia. eexists. reflexivity. }
      destruct (Z.ltb_spec i n) as [X|X]; [destruct (Hloc (i + 1) ltac:(lia)) as [_ R']; destruct (Z.leb_spec (off + loc (i + 1)) (size v + 1)) as [A'|A']|].
      2: { split; [intros (_ & Y & _); lia|]. intros _. unfold at_entry. rewrite (iter_in v I) by lia. cbn [bind]. destruct (Z.eqb_spec i n); [lia|]. rewrite (iter_out v I) by lia. eexists. reflexivity. }
      all: assert (EE : forall bm, at_entry gd v off n loc bm i = gd bm (loc i) (entry v off n loc i) /\ inside (entry v off n loc i)) by (intros bm; apply located_entry; lia).
      all: destruct (Hgd i Hi (proj2 (EE Debug))) as [G1 G2]; split; [intros (_ & _ & Q) bm; rewrite (proj1 (EE bm)); exact (G1 Q bm)|].
      all: intros N; rewrite (proj1 (EE Debug)); apply G2; intros Q; apply N; split; [lia|split; [intros; lia|exact Q]]. }
    pose proof (mapM_decides _ n _ _ D1) as [M1 M2]. split.
    - intros [_ Q] bm. rewrite E. destruct (M1 Q bm) as (ds & -> & N & R). cbn [bind]. eexists. split; [reflexivity|]. split; [reflexivity|]. intros i Hi.
      destruct (R i Hi) as (d & Nd & Pd). exists d. split; [|exact Pd].
      unfold bl_datum. cbn [bl_n bl_data]. unfold check, bl_verify, verifyIndex, throw_if. rewrite (u64_small i) by lia.
      assert (X : (if debug bm then if (i <? 1) || (n <? i) then Throw OutOfRange else Ok tt else Ok tt) = Ok tt).
      { destruct (debug bm); [|reflexivity]. destruct ((i <? 1) || (n <? i)) eqn:X; [lia|reflexivity]. }
      rewrite X. cbn [bind]. unfold at_. rewrite u64_small by lia. rewrite Nd. reflexivity.
    - intros N. rewrite E. destruct M2 as [e ->]; [intros Q; apply N; split; [exact L|exact Q]|]. eexists. reflexivity.
  Qed.
End Located.

(** ** The DLW block *)

(** Where the i-th entry of a DLW block ends: with the range, before the next entry, or before the multiplicities of the next entry. *)
Definition dlw_stop (v : view) (n : Z) (loc mult : Z -> Z) (i : Z) : Z :=
  if i =? n then size v + 1 else n + (if mult (i + 1) <? 100 then loc (i + 1) else mult (i + 1) - 100).
Definition dlw_entry (v : view) (n : Z) (loc mult : Z -> Z) (i : Z) : view := sub v (vbeg v + n + loc i - 1) (vbeg v + dlw_stop v n loc mult i - 1).
(** The multiplicities of an entry, in front of it. *)
Definition dlw_table (v : view) (n : Z) (loc mult : Z -> Z) (i : Z) : view := sub v (vbeg v + n + (mult i - 100) - 1) (vbeg v + n + loc i - 1).

Section Dlw.
  Variables (v : view) (off n : Z) (t : tyr) (loc mult mr me : Z -> Z) (fits : Z -> Prop) (shows : Z -> build -> ed_obj -> Prop).
  Hypothesis I : inside v.
  Hypothesis Hoff : 0 <= off <= size v.
  Hypothesis Hn : 0 <= n < 2 ^ 29.
  Hypothesis Hloc : forall i, 1 <= i <= n -> states v i (loc i) /\ 0 <= loc i < 2 ^ 31.
  Hypothesis Ht : n <= ty_ntr t < 2 ^ 31 /\ n <= len (ty_frames t).
  Hypothesis Hm : forall i, 1 <= i <= n -> nth_error (ty_mults t) (Z.to_nat (i - 1)) = Some (mult i) /\ 0 <= mult i < 2 ^ 31.
  Hypothesis Hup : forall i, 1 <= i <= n -> n + loc i <= size v + 1 -> n + loc i <= dlw_stop v n loc mult i.
  Hypothesis Hbe : forall i, 1 <= i <= n -> 100 < mult i -> mult i - 100 <= loc i.
  Hypothesis He : forall i, 1 <= i <= n -> 1 <= loc i -> inside (dlw_entry v n loc mult i) -> single (dlw_entry v n loc mult i) (loc i) (fits i) (shows i).
  Hypothesis Htab : forall i, 1 <= i <= n -> 100 < mult i -> inside (dlw_table v n loc mult i) ->
    states (dlw_table v n loc mult i) 1 (mr i) /\ 0 <= mr i < 2 ^ 29 /\ states (dlw_table v n loc mult i) (2 + 2 * mr i) (me i) /\ 0 <= me i < 2 ^ 29.

  Definition dlw_one_fits (i : Z) : Prop :=
    1 <= loc i /\ n + loc i <= size v + 1 /\ dlw_stop v n loc mult i <= size v + 1 /\ fits i
    /\ (100 < mult i -> 2 + 2 * mr i + 2 * me i <= size (dlw_table v n loc mult i)).
  Definition dlw_one_shows bm (i : Z) (p : en_obj * mult_obj) : Prop :=
    (exists d, fst p = Single d /\ shows i bm d) /\ (if 100 <? mult i then exists m, snd p = MuTab m /\ table_shows bm m (mr i) (me i) else snd p = MuNum (mult i)).

  Lemma verify_one (bm : build) m i : 1 <= i <= m -> m < 2 ^ 31 -> check bm (verifyIndex (u64 i) 1 m) = Ok tt.
  Proof.
    intros H B. unfold check, verifyIndex, throw_if. rewrite (u64_small i) by lia.
    destruct (debug bm); [|reflexivity]. destruct ((i <? 1) || (m <? i)) eqn:X; [lia|reflexivity].
  Qed.
  Lemma dlw_locator bm i : n <= off -> 1 <= i <= n -> dl_LDLW_ bm v n i = Ok (loc i).
  Proof.
    intros L Hi. unfold dl_LDLW_, bl_verify. rewrite verify_one by lia. cbn [bind]. destruct (Hloc i Hi) as [S R].
    pose proof (states_holds v i (loc i) I S ltac:(lia)) as W. apply (read_int bm v i (vbeg v + i - 1) (loc i) I); auto; lia.
  Qed.
  Lemma dlw_mult bm i : 1 <= i <= n -> ty_mult bm t i = Ok (mult i).
  Proof.
    intros Hi. unfold ty_mult. rewrite verify_one by lia. cbn [bind]. unfold at_. rewrite u64_small by lia. destruct (Hm i Hi) as [-> _]. reflexivity.
  Qed.

  Lemma dlw_one i : n <= off -> 1 <= i <= n -> decides (dlw_one_fits i) (fun bm => dl_one bm v n t i) (fun bm => dlw_one_shows bm i).
  Proof.
    intros L Hi. pose proof (size_bound v I) as SB. pose proof I as [(F1 & F2 & F3) F4]. destruct (Hloc i Hi) as [_ R].
    destruct (Z.eqb_spec (loc i) 0) as [Z0|Z0].
    { split; [intros [X _]; lia|]. intros _. exists StdException. unfold dl_one. rewrite dlw_locator by lia. cbn [bind]. rewrite u64_small, Z0 by lia. reflexivity. }
    destruct (Hm i Hi) as [_ Rm]. unfold dlw_one_fits.
    assert (E : forall bm, dl_one bm v n t i =
      (left <- iter bm v (n + loc i) ;;
       right <- (if i =? n then Ok (vend v) else iter bm v (dlw_stop v n loc mult i)) ;;
       d <- en_read bm (loc i) (sub v left right) ;;
       (if 100 <? mult i then mleft <- iter bm v (n + (mult i - 100)) ;; tm <- td_make bm (sub v mleft left) ;; Ok (d, MuTab tm) else Ok (d, MuNum (mult i))))).
    { intros bm. unfold dl_one. rewrite dlw_locator by lia. cbn [bind]. rewrite u64_small by lia. destruct (Z.eqb_spec (loc i) 0); [contradiction|]. cbn [throw_if bind].
      assert (Y : (if i =? n then Ok 0 else ty_mult bm t (i + 1)) = Ok (if i =? n then 0 else mult (i + 1))).
      { destruct (Z.eqb_spec i n); [reflexivity|]. apply dlw_mult. lia. }
      rewrite Y. cbn [bind]. rewrite dlw_mult by lia. replace (n + 1 + loc i - 1) with (n + loc i) by lia. destruct (iter bm v (n + loc i)) as [left|x|]; cbn [bind]; try reflexivity.
      assert (Y' : (if i =? n then Ok (vend v)
             else if (if i =? n then 0 else mult (i + 1)) <? 100 then l <- dl_LDLW_ bm v n (i + 1);; iter bm v (n + 1 + l - 1) else iter bm v (n + 1 + (if i =? n then 0 else mult (i + 1)) - 100 - 1))
           = (if i =? n then Ok (vend v) else iter bm v (dlw_stop v n loc mult i))).
      { unfold dlw_stop. destruct (Z.eqb_spec i n); [reflexivity|]. destruct (mult (i + 1) <? 100).
        - rewrite dlw_locator by lia. cbn [bind]. f_equal. lia.
        - f_equal. lia. }
      rewrite Y'. destruct (if i =? n then Ok (vend v) else iter bm v (dlw_stop v n loc mult i)) as [right|x|]; cbn [bind]; try reflexivity.
      replace (n + 1 + mult i - 100 - 1) with (n + (mult i - 100)) by lia. reflexivity. }
    destruct (Z.leb_spec (n + loc i) (size v + 1)) as [A|A].
    2: { split; [intros (_ & X & _); lia|]. intros _. rewrite E, (iter_out v I) by lia. eexists. reflexivity. }
    destruct (Z.leb_spec (dlw_stop v n loc mult i) (size v + 1)) as [B|B].
    2: { split; [intros (_ & _ & X & _); lia|]. intros _. rewrite E, (iter_in v I) by lia. cbn [bind]. unfold dlw_stop in *. destruct (Z.eqb_spec i n) as [X|X]; [lia|].
         destruct (Hloc (i + 1) ltac:(lia)) as [_ R2]. destruct (Hm (i + 1) ltac:(lia)) as [_ R3]. rewrite (iter_out v I); [eexists; reflexivity|]. destruct (mult (i + 1) <? 100); lia. }
    pose proof (Hup i Hi A) as U.
    assert (In1 : inside (dlw_entry v n loc mult i)) by (unfold dlw_entry, size in *; apply Decide.sub_inside; [exact I|lia|lia]).
    pose proof (single_decides _ _ _ _ In1 R (He i Hi ltac:(lia) In1)) as DS.
    assert (E' : forall bm, dl_one bm v n t i = (d <- en_read bm (loc i) (dlw_entry v n loc mult i) ;;
       (if 100 <? mult i then tm <- td_make bm (dlw_table v n loc mult i) ;; Ok (d, MuTab tm) else Ok (d, MuNum (mult i))))).
    { intros bm. rewrite E, (iter_in v I) by lia. cbn [bind].
      assert (Y : (if i =? n then Ok (vend v) else iter bm v (dlw_stop v n loc mult i)) = Ok (vbeg v + dlw_stop v n loc mult i - 1)).
      { destruct (Z.eqb_spec i n) as [X|X]; [f_equal; unfold dlw_stop; destruct (Z.eqb_spec i n); [unfold size; lia|lia]|]. apply iter_in; [exact I|lia]. }
      rewrite Y. cbn [bind]. unfold dlw_entry, dlw_table. replace (vbeg v + (n + loc i) - 1) with (vbeg v + n + loc i - 1) by lia.
      destruct (Z.ltb_spec 100 (mult i)) as [M|M]; [|reflexivity]. pose proof (Hbe i Hi M). rewrite (iter_in v I) by lia. cbn [bind].
      replace (vbeg v + (n + (mult i - 100)) - 1) with (vbeg v + n + (mult i - 100) - 1) by lia. reflexivity. }
    destruct (Z_lt_le_dec 100 (mult i)) as [M|M].
    - pose proof (Hbe i Hi M) as Be.
      assert (In2 : inside (dlw_table v n loc mult i)) by (unfold dlw_table, size in *; apply Decide.sub_inside; [exact I|lia|lia]).
      destruct (Htab i Hi M In2) as (T1 & T2 & T3 & T4). pose proof (C50_tables _ (mr i) (me i) In2 T2 T4 T1 T3) as [TD1 TD2].
      assert (MM : (100 <? mult i) = true) by lia. split.
      + intros (_ & _ & _ & Q1 & Q2) bm. rewrite E', MM. destruct (proj1 DS Q1 bm) as (d & -> & Sd). cbn [bind].
        destruct (TD1 (Q2 M) bm) as (tm & -> & St). cbn [bind]. eexists. split; [reflexivity|]. unfold dlw_one_shows. rewrite MM. cbn [fst snd]. split; [exact Sd|]. exists tm. split; [reflexivity|exact St].
      + intros N. rewrite E', MM. destruct (decides_settles _ _ _ DS) as [(x & ->)|(d & -> & Y)]; cbn [bind]; [eexists; reflexivity|].
        destruct (Z.leb_spec (2 + 2 * mr i + 2 * me i) (size (dlw_table v n loc mult i))) as [Q|Q].
        * exfalso. apply Y. intros Q1. apply N. split; [lia|]. split; [lia|]. split; [lia|]. split; [exact Q1|]. intros _. exact Q.
        * destruct (TD2 Q) as [e ->]. eexists. reflexivity.
    - assert (MM : (100 <? mult i) = false) by lia. split.
      + intros (_ & _ & _ & Q1 & _) bm. rewrite E', MM. destruct (proj1 DS Q1 bm) as (d & -> & Sd). cbn [bind].
        eexists. split; [reflexivity|]. unfold dlw_one_shows. rewrite MM. cbn [fst snd]. split; [exact Sd|reflexivity].
      + intros N. rewrite E', MM. destruct (proj2 DS) as [e ->]; [|eexists; reflexivity]. intros Q1. apply N. split; [lia|]. split; [lia|]. split; [lia|]. split; [exact Q1|]. intros; lia.
  Qed.

  Lemma dlw_decides : decides (n <= off /\ forall i, 1 <= i <= n -> dlw_one_fits i) (fun bm => dl_make bm v (vbeg v + off) t n)
    (fun bm o => dl_NR o = n /\ forall i, 1 <= i <= n -> exists d m, dl_distribution bm o i = Ok d /\ dl_multiplicity bm o i = Ok m /\ dlw_one_shows bm i (d, m)).
  Proof.
    pose proof (size_bound v I) as SB. unfold dl_make. replace (vbeg v + off - vbeg v) with off by lia.
    destruct (Z.leb_spec n off) as [L|L].
    2: { split; [intros [X _]; lia|]. intros _. rewrite s64_small by lia. unfold throw_if. destruct (Z.ltb_spec off n); [|lia]. eexists. reflexivity. }
    pose proof (mapM_decides (fun bm => dl_one bm v n t) n _ _ (fun i Hi => dlw_one i L Hi)) as [M1 M2]. rewrite s64_small by lia. unfold throw_if. destruct (Z.ltb_spec off n); [lia|].
    unfold dl_generateBlocks. destruct (Z.ltb_spec (len (ty_frames t)) n); [lia|]. cbn [bind]. split.
    - intros [_ Q] bm. destruct (M1 Q bm) as (ds & -> & N & R). cbn [bind]. eexists. split; [reflexivity|]. split; [reflexivity|]. intros i Hi.
      destruct (R i Hi) as ([d m] & Nd & Pd). exists d, m.
      assert (G : forall {A B} (f : A -> B) (l : list A) x, nth_error l (Z.to_nat (i - 1)) = Some x -> at_ (map f l) i = Ok (f x)).
      { intros A B f l x H1. unfold at_. rewrite u64_small by lia. rewrite nth_error_map, H1. reflexivity. }
      unfold dl_distribution, dl_multiplicity, bl_verify. cbn [dl_nr dl_data dl_mults]. rewrite verify_one by lia. cbn [bind].
      rewrite (G _ _ fst ds (d, m) Nd), (G _ _ snd ds (d, m) Nd). split; [reflexivity|]. split; [reflexivity|exact Pd].
    - intros N. destruct M2 as [e ->]; [intros Q; apply N; split; [exact L|exact Q]|]. eexists. reflexivity.
  Qed.
End Dlw.
