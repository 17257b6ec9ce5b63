(** C50: which ranges of words a constructor accepts.  Specification and lemmas. *)
From Coq Require Import ZArith Bool List Lia.
From Coq Require Import ZifyBool ZifyNat.
From Verif Require Import PropLemmasBasic Truncated NuBlock AtomicBlocks ElectronBlocks ThermalBlocks Accepted.
Import ListNotations.
Open Scope Z_scope.

(** * Specification *)

(** The number of words of a range, and its i-th word (if it has that many). *)
Definition size (v : view) : Z := vend v - vbeg v.
Definition word (v : view) (i : Z) : option double :=
  if (1 <=? i) && (i <=? size v) then nth_error (buf v) (Z.to_nat (vbeg v + i - 1)) else None.

(** A word that is a whole number: rounding and dropping the decimals give the same. *)
Definition whole_number (w : double) (z : Z) : Prop := sf_round w = Some z /\ sf_trunc w = Some z.

(** If the range has an i-th word, this is the number z. *)
Definition states (v : view) (i z : Z) : Prop := forall w, word v i = Some w -> whole_number w z.

(** The constructor needs n words.  With them it makes an object of which P holds, whatever the build mode; with
    fewer it throws in Debug. *)
Definition needs {A} (v : view) (n : Z) (make : build -> outcome A) (P : build -> A -> Prop) : Prop :=
  (n <= size v -> forall bm, exists o, make bm = Ok o /\ P bm o)
  /\ (size v < n -> exists e, make Debug = Throw e).

(** * Lemmas *)

Lemma dbl_whole z : - 2 ^ 53 < z < 2 ^ 53 -> whole_number (dbl z) z.
Proof. intros H. split; [apply sf_round_dbl; exact H|apply sf_trunc_dbl; exact H]. Qed.

Definition holds (b : list double) (p z : Z) : Prop := exists w, deref b p = Ok w /\ whole_number w z.

Lemma states_holds v i z : inside v -> states v i z -> 1 <= i <= size v -> holds (buf v) (vbeg v + i - 1) z.
Proof.
  intros [(F1 & F2 & F3) F4] S H. unfold states, word, size in *.
  destruct ((1 <=? i) && (i <=? vend v - vbeg v)) eqn:E; [|lia].
  destruct (deref_inside (buf v) (vbeg v + i - 1)) as [w W]; [lia|]. exists w. split; [exact W|]. apply S.
  unfold deref in W. destruct (Z.leb_spec 0 (vbeg v + i - 1)); [|lia]. destruct (nth_error _ _) as [x|]; [|discriminate]. apply Ok_inj in W. congruence.
Qed.

Lemma xss_word bm v i : inside v -> 1 <= i <= size v -> xss bm v i = deref (buf v) (vbeg v + i - 1).
Proof.
  intros I H. pose proof I as [(F1 & F2 & F3) F4]. unfold size, max_words in *. unfold xss. rewrite (u64_small i) by lia. rewrite (inside_vlen v I).
  unfold verifyIndex, throw_if. rewrite s64_small by lia. replace (vbeg v + (i - 1)) with (vbeg v + i - 1) by lia.
  destruct (debug bm); [|reflexivity]. destruct ((i <? 1) || _) eqn:E; [lia|]. reflexivity.
Qed.

Lemma xss_short v i : inside v -> size v < i < 2 ^ 63 -> xss Debug v i = Throw OutOfRange.
Proof.
  intros I H. pose proof I as [(F1 & F2 & F3) F4]. unfold size, max_words in *. unfold xss. rewrite (u64_small i) by lia. rewrite (inside_vlen v I).
  cbn [debug]. unfold verifyIndex, throw_if. destruct ((i <? 1) || _) eqn:E; [reflexivity|lia].
Qed.

Lemma to_int_whole w z : whole_number w z -> - 2 ^ 31 <= z < 2 ^ 31 -> to_int w = Ok z.
Proof. intros [R _] H. unfold to_int, in_int. rewrite R. destruct ((- 2 ^ 31 <=? z) && (z <? 2 ^ 31)) eqn:E; [reflexivity|lia]. Qed.
Lemma round_whole w z : whole_number w z -> 0 <= z < 2 ^ 64 -> round_to_size w = Ok z.
Proof. intros [R _] H. unfold round_to_size, in_size. rewrite R. destruct ((0 <=? z) && (z <? 2 ^ 64)) eqn:E; [reflexivity|lia]. Qed.
Lemma trunc_whole w z : whole_number w z -> 0 <= z < 2 ^ 64 -> trunc_to_size w = Ok z.
Proof. intros [_ R] H. unfold trunc_to_size, in_size. rewrite R. destruct ((0 <=? z) && (z <? 2 ^ 64)) eqn:E; [reflexivity|lia]. Qed.

Section Reading.
  Variables (bm : build) (v : view) (i p z : Z).
  Hypotheses (I : inside v) (H : 1 <= i <= size v) (P : p = vbeg v + i - 1) (W : holds (buf v) p z) (Z0 : 0 <= z < 2 ^ 31).
  Lemma read_round : (x <- xss bm v i ;; round_to_size x) = Ok z.
  Proof. rewrite (xss_word bm v i I H). subst p. destruct W as (w & -> & Hw). cbn [bind]. apply round_whole; [exact Hw|lia]. Qed.
  Lemma read_trunc : (x <- xss bm v i ;; trunc_to_size x) = Ok z.
  Proof. rewrite (xss_word bm v i I H). subst p. destruct W as (w & -> & Hw). cbn [bind]. apply trunc_whole; [exact Hw|lia]. Qed.
  Lemma read_int : ixss bm v i = Ok z.
  Proof. unfold ixss. rewrite (xss_word bm v i I H). subst p. destruct W as (w & -> & Hw). cbn [bind]. apply to_int_whole; [exact Hw|lia]. Qed.
  Lemma read_size : ixss_size bm v i = Ok z.
  Proof. unfold ixss_size. rewrite read_int. cbn [bind]. rewrite u64_small by lia. reflexivity. Qed.
End Reading.

Lemma verify_enough v n : inside v -> n <= size v -> verify_at_least v n = Ok tt.
Proof. intros [F _] H. unfold verify_at_least. rewrite (framed_s64 v F). unfold throw_if, size in *. destruct (Z.ltb_spec (vend v - vbeg v) n); [lia|reflexivity]. Qed.
Lemma verify_short v n : inside v -> size v < n -> verify_at_least v n = Throw StdException.
Proof. intros [F _] H. unfold verify_at_least. rewrite (framed_s64 v F). unfold throw_if, size in *. destruct (Z.ltb_spec (vend v - vbeg v) n); [reflexivity|lia]. Qed.

Lemma size_bound v : inside v -> 0 <= size v < 2 ^ 31.
Proof. intros [(F1 & F2 & F3) F4]. unfold size, max_words in *. lia. Qed.
Lemma sub_inside v b e : inside v -> vbeg v <= b <= e -> e <= vend v -> inside (sub v b e).
Proof. intros [(F1 & F2 & F3) F4] H1 H2. unfold inside, framed, sub. cbn [buf vbeg vend]. lia. Qed.
Lemma sub_size v b e : size (sub v b e) = e - b.
Proof. reflexivity. Qed.

(** One count, at the k-th word: the constructor reads it (by rounding, by truncation or as an int) and asks for a size. *)
Lemma one_count {A} v k n need (count : build -> view -> outcome Z) (asked : Z -> Z) (make : build -> view -> outcome A) (o : A) (P : build -> A -> Prop) :
  inside v -> 1 <= k <= need -> states v k n -> 0 <= n < 2 ^ 31 -> k < 2 ^ 62 ->
  (forall bm, 1 <= k <= size v -> holds (buf v) (vbeg v + k - 1) n -> count bm v = Ok n) ->
  (size v < k -> count Debug v = Throw OutOfRange) ->
  asked n = need ->
  (forall bm, make bm v = (c <- count bm v ;; _ <- verify_at_least v (asked c) ;; Ok o)) ->
  (forall bm, need <= size v -> make bm v = Ok o -> P bm o) ->
  needs v need (fun bm => make bm v) P.
Proof.
  intros I K S N K' C1 C2 Q M R. split.
  - intros L bm. exists o. assert (E : make bm v = Ok o); [|auto].
    rewrite M, (C1 bm) by (try lia; apply states_holds; auto; lia). cbn [bind]. rewrite Q, verify_enough by (assumption || lia). reflexivity.
  - intros L. rewrite M. destruct (Z.leb_spec k (size v)) as [L1|L1].
    + rewrite (C1 Debug) by (try lia; apply states_holds; auto; lia). cbn [bind]. rewrite Q, verify_short by assumption. eexists. reflexivity.
    + rewrite (C2 L1). eexists. reflexivity.
Qed.

(** * Columns and tables *)

Lemma cd_enough v nc n : inside v -> 0 <= nc -> 0 <= n < 2 ^ 31 -> holds (buf v) (vbeg v) n -> 1 + n * nc < 2 ^ 62 -> 1 + n * nc <= size v ->
  cd_make v nc = Ok (ColumnData v nc) /\ forall bm, cd_N bm (ColumnData v nc) = Ok n.
Proof.
  intros I Hc Hn W B L. pose proof I as [(F1 & F2 & F3) F4]. unfold size, max_words in *. assert (0 <= n * nc) by nia. split.
  - unfold cd_make, vempty. destruct (Z.eqb_spec (vbeg v) (vend v)); [lia|]. destruct W as (w & E & Hw). rewrite E. cbn [bind].
    rewrite (trunc_whole _ _ Hw) by lia. cbn [bind]. unfold cd_verifySize. rewrite (u64_small (vend v - vbeg v)), (u64_small (1 + n * nc)) by lia.
    unfold throw_if. destruct (negb _ && _) eqn:X; [lia|reflexivity].
  - intros bm. unfold cd_N, vempty. cbn [cd_v]. destruct (Z.eqb_spec (vbeg v) (vend v)); [lia|].
    apply (read_size bm v 1 (vbeg v) n I); unfold size; try lia; exact W.
Qed.

Lemma cd_decides v nc n : inside v -> 1 <= size v -> 0 <= nc -> states v 1 n -> 0 <= n < 2 ^ 31 -> 1 + n * nc < 2 ^ 62 ->
  needs v (1 + n * nc) (fun _ => cd_make v nc) (fun bm o => cd_N bm o = Ok n /\ forall i, 1 <= i <= nc -> returns (cd_column bm o i) n).
Proof.
  intros I L0 Hc S Hn B. assert (W : holds (buf v) (vbeg v) n).
  { replace (vbeg v) with (vbeg v + 1 - 1) by lia. apply states_holds; auto; lia. }
  split.
  - intros L bm. destruct (cd_enough v nc n I Hc Hn W B L) as [M N]. exists (ColumnData v nc). split; [exact M|]. split; [exact (N bm)|].
    intros i Hi. unfold size in *. apply (cd_accepts bm v nc _ n I Hc M (N bm)); try lia. intros _. destruct W as (w & E & Hw). exists w. split; [exact E|apply trunc_whole; [exact Hw|lia]].
  - intros L. pose proof I as [(F1 & F2 & F3) F4]. unfold size, max_words in *. unfold cd_make, vempty. destruct (Z.eqb_spec (vbeg v) (vend v)); [lia|].
    destruct W as (w & E & Hw). rewrite E. cbn [bind]. rewrite (trunc_whole _ _ Hw) by lia. cbn [bind]. unfold cd_verifySize.
    rewrite (u64_small (vend v - vbeg v)), (u64_small (1 + n * nc)) by lia. unfold throw_if. destruct (negb _ && _) eqn:X; [|lia]. eexists. reflexivity.
Qed.

Definition table_of_ (v : view) (nr ne : Z) : tabulatedData :=
  TabulatedData v (ColumnData (sub v (vbeg v) (vbeg v + 2 * nr + 1)) 2) (ColumnData (sub v (vbeg v + 2 * nr + 1) (vbeg v + 2 * nr + 1 + 2 * ne + 1)) 2).

Lemma td_enough v nr ne : inside v -> 0 <= nr < 2 ^ 29 -> 0 <= ne < 2 ^ 29 ->
  holds (buf v) (vbeg v) nr -> holds (buf v) (vbeg v + 2 * nr + 1) ne -> 2 + 2 * nr + 2 * ne <= size v ->
  (forall bm, td_make bm v = Ok (table_of_ v nr ne)) /\ forall bm, td_NB bm (table_of_ v nr ne) = Ok nr /\ td_N bm (table_of_ v nr ne) = Ok ne.
Proof.
  intros I Hr He W1 W2 L. pose proof I as [(F1 & F2 & F3) F4]. unfold max_words in *.
  pose (v1 := sub v (vbeg v) (vbeg v + 2 * nr + 1)). pose (v2 := sub v (vbeg v + 2 * nr + 1) (vbeg v + 2 * nr + 1 + 2 * ne + 1)).
  assert (I1 : inside v1) by (unfold size in L; apply sub_inside; auto; lia).
  assert (I2 : inside v2) by (unfold size in L; apply sub_inside; auto; lia).
  destruct (cd_enough v1 2 nr I1 ltac:(lia) ltac:(lia) W1 ltac:(lia)) as [M1 N1]; [unfold v1; rewrite sub_size; lia|].
  destruct (cd_enough v2 2 ne I2 ltac:(lia) ltac:(lia) W2 ltac:(lia)) as [M2 N2]; [unfold v2; rewrite sub_size; lia|].
  split.
  - intros bm. unfold td_make.
    rewrite (read_round bm v 1 (vbeg v) nr I) by (try exact W1; unfold size in *; lia). cbn [bind].
    rewrite (read_round bm v (1 + 2 * nr + 1) (vbeg v + 2 * nr + 1) ne I) by (try exact W2; unfold size in *; lia). cbn [bind].
    rewrite u32_small by lia. rewrite (verify_enough v _ I L). cbn [bind]. unfold td_generateBlocks.
    rewrite (read_size bm v 1 (vbeg v) nr I) by (try exact W1; unfold size in *; lia). cbn [bind].
    rewrite (read_size bm v (1 + 2 * nr + 1) (vbeg v + 2 * nr + 1) ne I) by (try exact W2; unfold size in *; lia). cbn [bind].
    unfold adv. rewrite !s64_small by lia. unfold id_make. fold v1. rewrite M1. cbn [bind]. fold v2. rewrite M2. reflexivity.
  - intros bm. split; [exact (N1 bm)|exact (N2 bm)].
Qed.

Definition table_shows bm (t : tabulatedData) (nr ne : Z) : Prop :=
  td_NB bm t = Ok nr /\ td_N bm t = Ok ne /\ returns (td_NBT bm t) nr /\ returns (td_INT bm t) nr /\ returns (td_x bm t) ne /\ returns (td_y bm t) ne.
Lemma table_shows_of bm v t nr ne : nearby v -> 0 <= nr < 2 ^ 29 -> 0 <= ne < 2 ^ 29 -> td_make bm v = Ok t -> td_NB bm t = Ok nr -> td_N bm t = Ok ne -> table_shows bm t nr ne.
Proof.
  intros F Hr He M N1 N2. destruct (td_accepts bm v t nr ne F M N1 N2) as [(_ & H1 & H2 & _ & H3 & H4) _]; [lia|]. unfold table_shows. auto 10.
Qed.

Lemma td_decides v nr ne : inside v -> 0 <= nr < 2 ^ 29 -> 0 <= ne < 2 ^ 29 -> states v 1 nr -> states v (2 + 2 * nr) ne ->
  needs v (2 + 2 * nr + 2 * ne) (fun bm => td_make bm v) (fun bm t => table_shows bm t nr ne).
Proof.
  intros I Hr He S1 S2. pose proof (size_bound v I) as SB. split.
  - intros L bm. assert (W1 := states_holds v 1 nr I S1 ltac:(lia)). assert (W2 := states_holds v (2 + 2 * nr) ne I S2 ltac:(lia)).
    replace (vbeg v + 1 - 1) with (vbeg v) in W1 by lia. replace (vbeg v + (2 + 2 * nr) - 1) with (vbeg v + 2 * nr + 1) in W2 by lia.
    destruct (td_enough v nr ne I Hr He W1 W2 L) as [M N]. eexists. split; [exact (M bm)|]. destruct (N bm) as [N1 N2].
    exact (table_shows_of bm v _ nr ne (framed_nearby v (proj1 I)) Hr He (M bm) N1 N2).
  - intros L. unfold td_make. destruct (Z.leb_spec 1 (size v)) as [L1|L1].
    + assert (W1 := states_holds v 1 nr I S1 ltac:(lia)). rewrite (read_round Debug v 1 _ nr I ltac:(lia) eq_refl W1) by lia. cbn [bind].
      destruct (Z.leb_spec (2 + 2 * nr) (size v)) as [L2|L2].
      * assert (W2 := states_holds v (2 + 2 * nr) ne I S2 ltac:(lia)). replace (1 + 2 * nr + 1) with (2 + 2 * nr) by lia.
        rewrite (read_round Debug v (2 + 2 * nr) _ ne I ltac:(lia) eq_refl W2) by lia. cbn [bind]. rewrite u32_small by lia. rewrite (verify_short v _ I L). eexists. reflexivity.
      * rewrite xss_short by (assumption || lia). eexists. reflexivity.
    + rewrite xss_short by (assumption || lia). eexists. reflexivity.
Qed.

(** A table behind k words *)
Lemma word_sub v k i : 0 <= k -> 1 <= i -> word (sub v (vbeg v + k) (vend v)) i = word v (k + i).
Proof.
  intros Hk Hi. unfold word, size, sub. cbn [vbeg vend buf]. replace (vbeg v + k + i - 1) with (vbeg v + (k + i) - 1) by lia.
  destruct ((1 <=? i) && _) eqn:E, ((1 <=? k + i) && _) eqn:E'; try reflexivity; lia.
Qed.
Lemma states_sub v k i z : 0 <= k -> 1 <= i -> states v (k + i) z -> states (sub v (vbeg v + k) (vend v)) i z.
Proof. intros Hk Hi S w W. rewrite word_sub in W by assumption. exact (S w W). Qed.

Lemma pt_decides v k nr ne : inside v -> 0 <= k <= size v -> 0 <= nr < 2 ^ 29 -> 0 <= ne < 2 ^ 29 -> states v (k + 1) nr -> states v (k + 2 + 2 * nr) ne ->
  needs v (k + 2 + 2 * nr + 2 * ne) (fun bm => pt_generateBlocks bm k v) (fun bm o => pt_v o = v /\ table_shows bm (pt_tab o) nr ne).
Proof.
  intros I Hk Hr He S1 S2. pose proof I as [(F1 & F2 & F3) F4]. unfold size in *.
  assert (I' : inside (sub v (vbeg v + k) (vend v))) by (apply sub_inside; auto; lia).
  apply (states_sub v k 1 nr ltac:(lia) ltac:(lia)) in S1.
  replace (k + 2 + 2 * nr) with (k + (2 + 2 * nr)) in S2 by lia. apply (states_sub v k (2 + 2 * nr) ne ltac:(lia) ltac:(lia)) in S2.
  destruct (td_decides _ nr ne I' Hr He S1 S2) as [A R]. rewrite sub_size in A, R. split.
  - unfold size. intros L bm. destruct (A ltac:(lia) bm) as (t & M & H). exists (PrefixedTabulated v t). unfold pt_generateBlocks. rewrite M. split; [reflexivity|]. split; [reflexivity|exact H].
  - unfold size. intros L. destruct (R ltac:(lia)) as (e & M). unfold pt_generateBlocks. rewrite M. eexists. reflexivity.
Qed.

(** * Spectra *)

Lemma two_counts v nr ne : inside v -> 0 <= nr < 2 ^ 29 -> 0 <= ne < 2 ^ 29 -> states v 1 nr -> states v (2 + 2 * nr) ne ->
  (2 + 2 * nr <= size v -> holds (buf v) (vbeg v) nr /\ holds (buf v) (vbeg v + 2 * nr + 1) ne).
Proof.
  intros I Hr He S1 S2 L. assert (W1 := states_holds v 1 nr I S1 ltac:(lia)). assert (W2 := states_holds v (2 + 2 * nr) ne I S2 ltac:(lia)).
  replace (vbeg v + 1 - 1) with (vbeg v) in W1 by lia. replace (vbeg v + (2 + 2 * nr) - 1) with (vbeg v + 2 * nr + 1) in W2 by lia. auto.
Qed.

Lemma ev_decides v nr ne : inside v -> 0 <= nr < 2 ^ 29 -> 0 <= ne < 2 ^ 29 -> states v 1 nr -> states v (2 + 2 * nr) ne ->
  needs v (3 + 2 * nr + 2 * ne) (fun bm => ev_make bm v) (fun bm o => table_shows bm (ev_tab o) nr ne /\ exists u, ev_U o = Ok u).
Proof.
  intros I Hr He S1 S2. pose proof (size_bound v I) as SB. pose proof I as [(F1 & F2 & F3) F4]. unfold max_words in F3. split.
  - intros L bm. destruct (two_counts v nr ne I Hr He S1 S2 ltac:(lia)) as [W1 W2].
    pose (v1 := sub v (vbeg v) (vbeg v + 2 * nr + 2 * ne + 2)).
    assert (I1 : inside v1) by (unfold size in L; apply sub_inside; auto; lia).
    destruct (td_enough v1 nr ne I1 Hr He W1 W2) as [M N]; [unfold v1; rewrite sub_size; lia|].
    exists (Evaporation v (table_of_ v1 nr ne)). split.
    + unfold ev_make.
      rewrite (read_round bm v 1 (vbeg v) nr I) by (try exact W1; unfold size in *; lia). cbn [bind].
      rewrite (read_round bm v (1 + 2 * nr + 1) (vbeg v + 2 * nr + 1) ne I) by (try exact W2; unfold size in *; lia). cbn [bind].
      rewrite u32_small by lia. rewrite verify_enough by (assumption || lia). cbn [bind]. unfold ev_generateBlocks.
      rewrite (read_size bm v 1 (vbeg v) nr I) by (try exact W1; unfold size in *; lia). cbn [bind].
      rewrite (read_size bm v (1 + 2 * nr + 1) (vbeg v + 2 * nr + 1) ne I) by (try exact W2; unfold size in *; lia). cbn [bind].
      unfold adv. rewrite !s64_small by lia. fold v1. rewrite (M bm). reflexivity.
    + cbn [ev_tab]. destruct (N bm) as [N1 N2]. split; [exact (table_shows_of bm v1 _ nr ne (framed_nearby v1 (proj1 I1)) Hr He (M bm) N1 N2)|].
      unfold ev_U. cbn [ev_tab td_v table_of_]. unfold v1, sub. cbn [buf vend]. apply deref_inside. unfold size in L. lia.
  - intros L. unfold ev_make. destruct (Z.leb_spec 1 (size v)) as [L1|L1].
    + assert (W1 := states_holds v 1 nr I S1 ltac:(lia)). rewrite (read_round Debug v 1 _ nr I ltac:(lia) eq_refl W1) by lia. cbn [bind].
      destruct (Z.leb_spec (2 + 2 * nr) (size v)) as [L2|L2].
      * assert (W2 := states_holds v (2 + 2 * nr) ne I S2 ltac:(lia)). replace (1 + 2 * nr + 1) with (2 + 2 * nr) by lia.
        rewrite (read_round Debug v (2 + 2 * nr) _ ne I ltac:(lia) eq_refl W2) by lia. cbn [bind]. rewrite u32_small by lia. rewrite verify_short by (assumption || lia). eexists. reflexivity.
      * rewrite xss_short by (assumption || lia). eexists. reflexivity.
    + rewrite xss_short by (assumption || lia). eexists. reflexivity.
Qed.

Lemma size_short v i : inside v -> size v < i < 2 ^ 63 -> ixss_size Debug v i = Throw OutOfRange.
Proof. intros I H. unfold ixss_size, ixss. rewrite xss_short by assumption. reflexivity. Qed.

(** reads the count n at the k-th word, which is there *)
Ltac counted v k n S I :=
  let W := fresh "W" in
  assert (W := states_holds v k n I S ltac:(lia));
  rewrite (read_size _ v k _ n I ltac:(lia) eq_refl W) by lia; cbn [bind].
(** the k-th word is there, or its index is rejected *)
Ltac present v k :=
  let L := fresh "L" in
  destruct (Z.leb_spec k (size v)) as [L|L]; [|rewrite size_short by (assumption || lia); eexists; reflexivity].

Lemma ge_decides v nr ne nb : inside v -> 0 <= nr < 2 ^ 29 -> 0 <= ne < 2 ^ 29 -> 0 <= nb < 2 ^ 29 ->
  states v 1 nr -> states v (2 + 2 * nr) ne -> states v (3 + 2 * nr + 2 * ne) nb ->
  needs v (3 + 2 * nr + 2 * ne + nb) (fun bm => ge_make bm v)
    (fun bm o => table_shows bm (ge_tab o) nr ne /\ ge_NET bm o = Ok nb /\ returns (ge_bins bm o) nb).
Proof.
  intros I Hr He Hb S1 S2 S3. pose proof (size_bound v I) as SB. pose proof I as [(F1 & F2 & F3) F4]. unfold max_words in F3. split.
  - intros L bm. destruct (two_counts v nr ne I Hr He S1 S2 ltac:(lia)) as [W1 W2].
    assert (W3 := states_holds v (3 + 2 * nr + 2 * ne) nb I S3 ltac:(lia)).
    pose (v1 := sub v (vbeg v) (vbeg v + 2 * nr + 2 * ne + 2)). pose (v2 := sub v (vbeg v + 2 * nr + 2 * ne + 2) (vend v)).
    assert (I1 : inside v1) by (unfold size in L; apply sub_inside; auto; lia).
    assert (I2 : inside v2) by (unfold size in L; apply sub_inside; auto; lia).
    destruct (td_enough v1 nr ne I1 Hr He W1 W2) as [M N]; [unfold v1; rewrite sub_size; lia|].
    replace (vbeg v + (3 + 2 * nr + 2 * ne) - 1) with (vbeg v + 2 * nr + 2 * ne + 2) in W3 by lia.
    assert (L2 : 1 + nb * 1 <= size v2) by (unfold v2; rewrite sub_size; unfold size in L; lia).
    destruct (cd_enough v2 1 nb I2 ltac:(lia) ltac:(lia) W3 ltac:(lia) L2) as [M2 N2].
    exists (GeneralEvaporation v (table_of_ v1 nr ne) (ColumnData v2 1)). split.
    + unfold ge_make. counted v 1 nr S1 I. replace (1 + 2 * nr + 1) with (2 + 2 * nr) by lia. counted v (2 + 2 * nr) ne S2 I.
      replace (2 + 2 * nr + 2 * ne + 1) with (3 + 2 * nr + 2 * ne) by lia. counted v (3 + 2 * nr + 2 * ne) nb S3 I.
      rewrite u32_small by lia. rewrite verify_enough by (assumption || lia). cbn [bind]. unfold ge_generateBlocks.
      counted v 1 nr S1 I. replace (1 + 2 * nr + 1) with (2 + 2 * nr) by lia. counted v (2 + 2 * nr) ne S2 I.
      unfold adv. rewrite !s64_small by lia. fold v1. rewrite (M bm). cbn [bind]. fold v2. rewrite M2. reflexivity.
    + cbn [ge_tab]. destruct (N bm) as [N1 N3]. split; [exact (table_shows_of bm v1 _ nr ne (framed_nearby v1 (proj1 I1)) Hr He (M bm) N1 N3)|]. split.
      * unfold ge_NET. cbn [ge_binsd]. rewrite N2. cbn [bind]. rewrite s32_small by lia. reflexivity.
      * unfold ge_bins. cbn [ge_binsd]. apply (cd_accepts bm v2 1 _ nb I2 ltac:(lia) M2 (N2 bm)); try lia.
        -- intros _. destruct W3 as (w & E & Hw). exists w. split; [exact E|apply trunc_whole; [exact Hw|lia]].
        -- unfold size in L2. lia.
  - intros L. unfold ge_make. present v 1. counted v 1 nr S1 I. replace (1 + 2 * nr + 1) with (2 + 2 * nr) by lia.
    present v (2 + 2 * nr). counted v (2 + 2 * nr) ne S2 I. replace (2 + 2 * nr + 2 * ne + 1) with (3 + 2 * nr + 2 * ne) by lia.
    present v (3 + 2 * nr + 2 * ne). counted v (3 + 2 * nr + 2 * ne) nb S3 I. rewrite u32_small by lia. rewrite verify_short by (assumption || lia). eexists. reflexivity.
Qed.

Lemma wa_decides v na n nb m : inside v -> 0 <= na < 2 ^ 29 -> 0 <= n < 2 ^ 29 -> 0 <= nb < 2 ^ 29 -> 0 <= m < 2 ^ 29 ->
  states v 1 na -> states v (2 + 2 * na) n -> states v (3 + 2 * na + 2 * n) nb -> states v (4 + 2 * na + 2 * n + 2 * nb) m ->
  needs v (5 + 2 * na + 2 * n + 2 * nb + 2 * m) (fun bm => wa_make bm v)
    (fun bm o => table_shows bm (wa_a o) na n /\ table_shows bm (wa_b o) nb m /\ exists u, wa_U o = Ok u).
Proof.
  intros I Ha Hn Hb Hm S1 S2 S3 S4. pose proof (size_bound v I) as SB. pose proof I as [(F1 & F2 & F3) F4]. unfold max_words in F3. split.
  - intros L bm. destruct (two_counts v na n I Ha Hn S1 S2 ltac:(lia)) as [W1 W2].
    assert (W3 := states_holds v (3 + 2 * na + 2 * n) nb I S3 ltac:(lia)). assert (W4 := states_holds v (4 + 2 * na + 2 * n + 2 * nb) m I S4 ltac:(lia)).
    pose (b := vbeg v + 2 * na + 2 * n + 2).
    replace (vbeg v + (3 + 2 * na + 2 * n) - 1) with b in W3 by (unfold b; lia). replace (vbeg v + (4 + 2 * na + 2 * n + 2 * nb) - 1) with (b + 2 * nb + 1) in W4 by (unfold b; lia).
    pose (v1 := sub v (vbeg v) b). pose (v2 := sub v b (b + 2 * nb + 2 * m + 2)).
    assert (I1 : inside v1) by (unfold size in L; apply sub_inside; auto; unfold b; lia).
    assert (I2 : inside v2) by (unfold size in L; apply sub_inside; auto; unfold b; lia).
    destruct (td_enough v1 na n I1 Ha Hn W1 W2) as [M N]; [unfold v1, b; rewrite sub_size; lia|].
    destruct (td_enough v2 nb m I2 Hb Hm W3 W4) as [M' N']; [unfold v2; rewrite sub_size; lia|].
    exists (Watt v (table_of_ v1 na n) (table_of_ v2 nb m)). split.
    + unfold wa_make. cbv zeta. counted v 1 na S1 I. replace (1 + 2 * na + 1) with (2 + 2 * na) by lia. counted v (2 + 2 * na) n S2 I.
      replace (2 + 2 * na + 2 * n + 1) with (3 + 2 * na + 2 * n) by lia. counted v (3 + 2 * na + 2 * n) nb S3 I.
      replace (3 + 2 * na + 2 * n + 2 * nb + 1) with (4 + 2 * na + 2 * n + 2 * nb) by lia. counted v (4 + 2 * na + 2 * n + 2 * nb) m S4 I.
      rewrite u32_small by lia. rewrite verify_enough by (assumption || lia). cbn [bind]. unfold wa_generateBlocks. cbv zeta.
      counted v 1 na S1 I. replace (1 + 2 * na + 1) with (2 + 2 * na) by lia. counted v (2 + 2 * na) n S2 I.
      unfold adv. rewrite !(s64_small (2 * na)), !(s64_small (2 * n)) by lia. fold b.
      replace (u64 (b - vbeg v) + 1) with (3 + 2 * na + 2 * n) by (rewrite u64_small; unfold b; lia).
      counted v (3 + 2 * na + 2 * n) nb S3 I.
      replace (3 + 2 * na + 2 * n + 2 * nb + 1) with (4 + 2 * na + 2 * n + 2 * nb) by lia. counted v (4 + 2 * na + 2 * n + 2 * nb) m S4 I.
      rewrite !s64_small by lia. fold v1. rewrite (M bm). cbn [bind]. fold v2. rewrite (M' bm). reflexivity.
    + cbn [wa_a wa_b]. destruct (N bm) as [N1 N2]. destruct (N' bm) as [N3 N4].
      split; [exact (table_shows_of bm v1 _ na n (framed_nearby v1 (proj1 I1)) Ha Hn (M bm) N1 N2)|].
      split; [exact (table_shows_of bm v2 _ nb m (framed_nearby v2 (proj1 I2)) Hb Hm (M' bm) N3 N4)|].
      unfold wa_U. cbn [wa_b td_v table_of_]. unfold v2, sub. cbn [buf vend]. apply deref_inside. unfold b, size in *. lia.
  - intros L. unfold wa_make. cbv zeta. present v 1. counted v 1 na S1 I. replace (1 + 2 * na + 1) with (2 + 2 * na) by lia.
    present v (2 + 2 * na). counted v (2 + 2 * na) n S2 I. replace (2 + 2 * na + 2 * n + 1) with (3 + 2 * na + 2 * n) by lia.
    present v (3 + 2 * na + 2 * n). counted v (3 + 2 * na + 2 * n) nb S3 I. replace (3 + 2 * na + 2 * n + 2 * nb + 1) with (4 + 2 * na + 2 * n + 2 * nb) by lia.
    present v (4 + 2 * na + 2 * n + 2 * nb). counted v (4 + 2 * na + 2 * n + 2 * nb) m S4 I. rewrite u32_small by lia. rewrite verify_short by (assumption || lia). eexists. reflexivity.
Qed.

(** * Blocks with locators *)

Lemma mapM_settles {A B} (f : A -> outcome B) l : (forall y, In y l -> (exists b, f y = Ok b) \/ exists e, f y = Throw e) ->
  (exists r, mapM f l = Ok r /\ forall y, In y l -> exists b, f y = Ok b) \/ exists e, mapM f l = Throw e.
Proof.
  intros H. induction l as [|a l IH]; [left; exists []; split; [reflexivity|intros y []]|]. cbn [mapM].
  destruct (H a (or_introl eq_refl)) as [[b E]|[e E]]; rewrite E; cbn [bind]; [|right; eexists; reflexivity].
  destruct (IH (fun y Hy => H y (or_intror Hy))) as [(r & R & Q)|[e R]]; rewrite R; cbn [bind].
  - left. eexists. split; [reflexivity|]. intros y [<- |Hy]; [eauto|exact (Q y Hy)].
  - right. eexists. reflexivity.
Qed.
Lemma mapM_same {A B} (f g : A -> outcome B) l : (forall y, In y l -> f y = g y) -> mapM f l = mapM g l.
Proof. intros H. induction l as [|a l IH]; [reflexivity|]. cbn [mapM]. rewrite (H a (or_introl eq_refl)), IH; [reflexivity|]. intros y Hy. apply H. right. exact Hy. Qed.
Lemma in_seqZ a n x : In x (seqZ a n) <-> a <= x < a + Z.of_nat n.
Proof.
  revert a. induction n as [|n IH]; intros a; cbn [seqZ].
  - split; [intros []|lia].
  - cbn [In]. rewrite IH. lia.
Qed.

(** The i-th entry of a block with n locators whose data start behind the first off words: from its locator to the next one, or to the end *)
Definition entry (v : view) (off n : Z) (loc : Z -> Z) (i : Z) : view :=
  sub v (vbeg v + off + loc i - 1) (if i =? n then vend v else vbeg v + off + loc (i + 1) - 1).

(** The locators stand in front of the data and point into the range or to its end, and each entry has the words it needs. *)
Definition block_fits (v : view) (off n : Z) (loc need : Z -> Z) : Prop :=
  n <= off /\ forall i, 1 <= i <= n -> 1 <= off + loc i <= size v + 1 /\ need i <= size (entry v off n loc i).

Lemma iter_in v (I : inside v) bm i : 1 <= i <= size v + 1 -> iter bm v i = Ok (vbeg v + i - 1).
Proof. intros H. apply iter_inside; [exact I|exact H]. Qed.
Lemma iter_out v (I : inside v) i : size v + 1 < i < 2 ^ 63 -> iter Debug v i = Throw OutOfRange.
Proof.
  intros H. pose proof (size_bound v I). unfold iter. rewrite (u64_small i) by lia. rewrite (inside_vlen v I). cbn [debug]. fold (size v).
  rewrite u64_small by lia. unfold verifyIndex, throw_if. destruct ((i <? 1) || _) eqn:E; [reflexivity|lia].
Qed.

Section Locators.
  Context {D : Type} (gd : build -> Z -> view -> outcome D) (v : view) (off n : Z) (loc need : Z -> Z) (P : build -> Z -> D -> Prop).
  Hypothesis I : inside v.
  Hypothesis Hoff : 0 <= off <= size v.
  Hypothesis Hn : 0 <= n < 2 ^ 31.
  Hypothesis Hloc : forall i, 1 <= i <= n -> states v i (loc i) /\ 1 <= loc i < 2 ^ 31.
  Hypothesis Hup : forall i, 1 <= i < n -> loc i <= loc (i + 1).
  Hypothesis Hgd : forall i, 1 <= i <= n -> inside (entry v off n loc i) -> needs (entry v off n loc i) (need i) (fun bm => gd bm (loc i) (entry v off n loc i)) (fun bm d => P bm i d).

  Lemma lloc bm i : n <= off -> 1 <= i <= n -> bl_LLOC_ bm v n true i = Ok (loc i).
  Proof.
    intros L Hi. unfold bl_LLOC_, check, bl_verify, verifyIndex, throw_if. rewrite (u64_small i) by lia.
    assert (E : (if debug bm then if (i <? 1) || (n <? i) then Throw OutOfRange else Ok tt else Ok tt) = Ok tt).
    { destruct (debug bm); [|reflexivity]. destruct ((i <? 1) || (n <? i)) eqn:E; [lia|reflexivity]. }
    rewrite E. cbn [bind]. destruct (Hloc i Hi) as [S R]. assert (W := states_holds v i (loc i) I S ltac:(lia)).
    rewrite (read_int bm v i _ (loc i) I ltac:(lia) eq_refl W) by lia. cbn [bind]. rewrite u64_small by lia. reflexivity.
  Qed.

  Definition at_entry bm (i : Z) : outcome D :=
    left <- iter bm v (off + loc i) ;;
    right <- (if i =? n then Ok (vend v) else iter bm v (off + loc (i + 1))) ;;
    gd bm (loc i) (sub v left right).

  Lemma at_entry_ok bm i : 1 <= i <= n -> (1 <= off + loc i <= size v + 1) -> (i < n -> off + loc (i + 1) <= size v + 1) ->
    at_entry bm i = gd bm (loc i) (entry v off n loc i) /\ inside (entry v off n loc i).
  Proof.
    intros Hi A B. pose proof I as [(F1 & F2 & F3) F4]. unfold at_entry, entry. rewrite (iter_in v I bm _ A). cbn [bind].
    destruct (Z.eqb_spec i n) as [E|E].
    - cbn [bind]. split; [do 2 f_equal; lia|]. unfold size in A. apply sub_inside; auto; lia.
    - pose proof (Hup i ltac:(lia)). destruct (Hloc i Hi) as [_ R]. rewrite (iter_in v I) by lia. cbn [bind]. split; [do 2 f_equal; lia|]. unfold size in A, B. apply sub_inside; auto; lia.
  Qed.

  Lemma blocks_are bm data : n <= off -> data = vbeg v + off ->
    bl_make bm (gd bm) v data n true = (ds <- mapM (at_entry bm) (seqZ 1 (Z.to_nat n)) ;; Ok (BlockWL v n true data ds)).
  Proof.
    intros L ->. pose proof (size_bound v I). unfold bl_make, bl_generateBlocks. replace (vbeg v + off - vbeg v) with off by lia. rewrite s64_small by lia.
    unfold throw_if. destruct (Z.ltb_spec off n); [lia|]. cbn [bind].
    rewrite (mapM_same _ (at_entry bm)); [reflexivity|]. intros i Hi. apply in_seqZ in Hi. assert (Hi' : 1 <= i <= n) by lia.
    cbv zeta. rewrite (u64_small off) by lia. rewrite (lloc bm i L Hi'). cbn [bind]. unfold at_entry.
    replace (off + 1 + loc i - 1) with (off + loc i) by lia. destruct (Z.eqb_spec i n) as [X|X]; [reflexivity|].
    rewrite (lloc bm (i + 1) L) by lia. cbn [bind]. replace (off + 1 + loc (i + 1) - 1) with (off + loc (i + 1)) by lia. reflexivity.
  Qed.

  Lemma bl_decides data : data = vbeg v + off ->
    (block_fits v off n loc need -> forall bm, exists o, bl_make bm (gd bm) v data n true = Ok o /\ bl_n o = n
       /\ forall i, 1 <= i <= n -> exists d, bl_datum bm o i = Ok d /\ P bm i d)
    /\ (~ block_fits v off n loc need -> exists e, bl_make Debug (gd Debug) v data n true = Throw e).
  Proof.
    intros Hd. pose proof (size_bound v I) as SB. split.
    - intros [L F] bm. rewrite (blocks_are bm data L Hd).
      destruct (mapM_seq (at_entry bm) (fun k d => P bm (Z.of_nat k + 1) d) (Z.to_nat n) 1 0) as (ds & E & N & R).
      { intros k Hk. destruct (F (1 + Z.of_nat k) ltac:(lia)) as [A B].
        destruct (at_entry_ok bm (1 + Z.of_nat k) ltac:(lia) A) as [-> In]; [intros X; destruct (F (1 + Z.of_nat k + 1) ltac:(lia)); lia|].
        destruct (Hgd (1 + Z.of_nat k) ltac:(lia) In) as [G _]. destruct (G B bm) as (d & Ed & Pd). exists d. split; [exact Ed|].
        replace (Z.of_nat (0 + k) + 1) with (1 + Z.of_nat k) by lia. exact Pd. }
      rewrite E. cbn [bind]. eexists. split; [reflexivity|]. split; [reflexivity|]. intros i Hi.
      unfold bl_datum. cbn [bl_n bl_data]. unfold check, bl_verify, verifyIndex, throw_if. rewrite (u64_small i) by lia.
      assert (X : (if debug bm then if (i <? 1) || (n <? i) then Throw OutOfRange else Ok tt else Ok tt) = Ok tt).
      { destruct (debug bm); [|reflexivity]. destruct ((i <? 1) || (n <? i)) eqn:X; [lia|reflexivity]. }
      rewrite X. cbn [bind]. unfold at_. rewrite u64_small by lia.
      destruct (nth_error ds (Z.to_nat (i - 1))) as [d|] eqn:Nd; [|apply nth_error_None in Nd; lia].
      exists d. split; [reflexivity|]. specialize (R _ _ Nd). replace (Z.of_nat (0 + Z.to_nat (i - 1)) + 1) with i in R by lia. exact R.
    - intros F. destruct (Z.leb_spec n off) as [L|L].
      2: { subst data. unfold bl_make. replace (vbeg v + off - vbeg v) with off by lia. rewrite s64_small by lia. unfold throw_if.
           destruct (Z.ltb_spec off n); [|lia]. eexists. reflexivity. }
      rewrite (blocks_are Debug data L Hd).
      assert (G : forall i, 1 <= i <= n -> (exists d, at_entry Debug i = Ok d) \/ exists e, at_entry Debug i = Throw e).
      { intros i Hi. destruct (Hloc i Hi) as [_ R]. destruct (Z.leb_spec (off + loc i) (size v + 1)) as [A|A].
        - destruct (Z.eqb_spec i n) as [X|X].
          + destruct (at_entry_ok Debug i Hi ltac:(lia)) as [-> In]; [lia|]. destruct (Hgd i Hi In) as [G1 G2].
            destruct (Z.leb_spec (need i) (size (entry v off n loc i))) as [Q|Q]; [left; destruct (G1 Q Debug) as (d & Ed & _); eauto|right; exact (G2 Q)].
          + destruct (Hloc (i + 1) ltac:(lia)) as [_ R']. destruct (Z.leb_spec (off + loc (i + 1)) (size v + 1)) as [A'|A'].
            * destruct (at_entry_ok Debug i Hi ltac:(lia)) as [-> In]; [lia|]. destruct (Hgd i Hi In) as [G1 G2].
              destruct (Z.leb_spec (need i) (size (entry v off n loc i))) as [Q|Q]; [left; destruct (G1 Q Debug) as (d & Ed & _); eauto|right; exact (G2 Q)].
            * right. unfold at_entry. rewrite (iter_in v I) by lia. cbn [bind]. destruct (Z.eqb_spec i n); [contradiction|]. rewrite (iter_out v I) by lia. eexists. reflexivity.
        - right. unfold at_entry. rewrite (iter_out v I) by lia. eexists. reflexivity. }
      destruct (mapM_settles (at_entry Debug) (seqZ 1 (Z.to_nat n))) as [(r & _ & Q)|[e R]].
      { intros i Hi. apply in_seqZ in Hi. apply G. lia. }
      2: { rewrite R. eexists. reflexivity. }
      exfalso. apply F. split; [exact L|].
      assert (A : forall i, 1 <= i <= n -> 1 <= off + loc i <= size v + 1).
      { intros i Hi. destruct (Hloc i Hi) as [_ R]. destruct (Z.leb_spec (off + loc i) (size v + 1)) as [A|A]; [lia|].
        destruct (Q i) as [d Ed]; [apply in_seqZ; lia|]. unfold at_entry in Ed. rewrite (iter_out v I) in Ed by lia. discriminate. }
      intros i Hi. split; [exact (A i Hi)|]. destruct (Q i) as [d Ed]; [apply in_seqZ; lia|].
      destruct (at_entry_ok Debug i Hi (A i Hi)) as [E In]; [intros X; pose proof (A (i + 1) ltac:(lia)); lia|]. rewrite E in Ed.
      destruct (Z.leb_spec (need i) (size (entry v off n loc i))) as [X|X]; [exact X|]. destruct (Hgd i Hi In) as [_ G2]. destruct (G2 X) as [e Ee]. congruence.
  Qed.
End Locators.

(** * Distributions for each incident energy *)

(** The first of the starts rel j, j in js, that lies behind start *)
Fixpoint next_start (rel : Z -> Z) (start : Z) (js : list Z) : option Z :=
  match js with [] => None | j :: r => if start <? rel j then Some (rel j) else next_start rel start r end.
(** Where the i-th of n distributions ends: at the first of the next starts that lies behind its own, or with the range *)
Definition stop (v : view) (n : Z) (rel : Z -> Z) (i : Z) : Z :=
  match next_start rel (rel i) (seqZ (i + 1) (Z.to_nat (n - i))) with Some l => l | None => size v + 1 end.
Definition part (v : view) (n : Z) (rel : Z -> Z) (i : Z) : view := sub v (vbeg v + rel i - 1) (vbeg v + stop v n rel i - 1).

(** The interpolation data, the energies and the locators are there, each distribution starts inside the range (or at its end),
    ends there and has the words it needs. *)
Definition dists_fit (v : view) (head n : Z) (rel need : Z -> Z) : Prop :=
  head <= size v /\ forall i, 1 <= i <= n -> 1 <= rel i <= size v + 1 /\ stop v n rel i <= size v + 1 /\ need i <= size (part v n rel i).

(** The same, with another condition on each distribution. *)
Definition dists_ok (v : view) (head n : Z) (rel : Z -> Z) (ok : Z -> Prop) : Prop :=
  head <= size v /\ forall i, 1 <= i <= n -> 1 <= rel i <= size v + 1 /\ stop v n rel i <= size v + 1 /\ ok i.
(** The constructor accepts when [Q], and rejects in Debug otherwise. *)
Definition decides {A} (Q : Prop) (make : build -> outcome A) (P : build -> A -> Prop) : Prop :=
  (Q -> forall bm, exists o, make bm = Ok o /\ P bm o) /\ (~ Q -> exists e, make Debug = Throw e).

Lemma as_int_small z : - 2 ^ 31 <= z < 2 ^ 31 -> as_int z = z.
Proof. intros H. unfold as_int, s32, u64. Z.div_mod_to_equations. lia. Qed.

Section Dists.
  Context {D : Type} (gd : build -> double -> Z -> view -> outcome D) (v : view) (nr ne locb : Z) (loc : Z -> Z) (ok : Z -> Prop) (P : build -> Z -> D -> Prop).
  Hypothesis I : inside v.
  Hypothesis Hr : 0 <= nr < 2 ^ 29.
  Hypothesis He : 0 <= ne < 2 ^ 29.
  Hypothesis Hlocb : 1 <= locb < 2 ^ 31.
  Hypothesis S1 : states v 1 nr.
  Hypothesis S2 : states v (2 + 2 * nr) ne.
  Hypothesis Hloc : forall i, 1 <= i <= ne -> states v (2 + 2 * nr + ne + i) (loc i) /\ 0 <= loc i < 2 ^ 31.
  Let rel (i : Z) : Z := loc i - locb + 1.
  Hypothesis Hgd : forall x i, 1 <= i <= ne -> 1 <= rel i -> inside (part v ne rel i) -> (ok i \/ ~ ok i) /\ decides (ok i) (fun bm => gd bm x (loc i) (part v ne rel i)) (fun bm d => P bm i d).

  Let head : Z := 2 + 2 * nr + 2 * ne.
  Let values : columnData := ColumnData (sub v (vbeg v + 2 * nr + 1) (vbeg v + 2 * nr + 2 * ne + 2)) 2.

  Lemma dd_head bm : head <= size v ->
    dd_make bm (gd bm) locb v = (ds <- mapM (dd_distribution bm (gd bm) as_int v locb values ne) (seqZ 1 (Z.to_nat ne)) ;;
      Ok (DistData v locb (ColumnData (sub v (vbeg v) (vbeg v + 2 * nr + 1)) 2) values ds))
    /\ cd_N bm values = Ok ne /\ cd_N bm (ColumnData (sub v (vbeg v) (vbeg v + 2 * nr + 1)) 2) = Ok nr.
  Proof.
    intros L. unfold head in L. pose proof (size_bound v I) as SB. destruct (two_counts v nr ne I Hr He S1 S2 ltac:(lia)) as [W1 W2].
    pose proof I as [(F1 & F2 & F3) F4]. unfold max_words in F3.
    pose (v1 := sub v (vbeg v) (vbeg v + 2 * nr + 1)). pose (v2 := sub v (vbeg v + 2 * nr + 1) (vbeg v + 2 * nr + 2 * ne + 2)).
    assert (I1 : inside v1) by (unfold size in L; apply sub_inside; auto; lia).
    assert (I2 : inside v2) by (unfold size in L; apply sub_inside; auto; lia).
    destruct (cd_enough v1 2 nr I1 ltac:(lia) ltac:(lia) W1 ltac:(lia)) as [M1 N1]; [unfold v1; rewrite sub_size; lia|].
    destruct (cd_enough v2 2 ne I2 ltac:(lia) ltac:(lia) W2 ltac:(lia)) as [M2 N2]; [unfold v2; rewrite sub_size; lia|].
    split; [|split; [exact (N2 bm)|exact (N1 bm)]].
    unfold dd_make. rewrite (read_round bm v 1 (vbeg v) nr I) by (try exact W1; unfold size in *; lia). cbn [bind].
    rewrite (read_round bm v (1 + 2 * nr + 1) (vbeg v + 2 * nr + 1) ne I) by (try exact W2; unfold size in *; lia). cbn [bind].
    rewrite u32_small by lia. rewrite verify_enough by (assumption || lia). cbn [bind]. unfold dd_generateBlocks.
    rewrite (read_size bm v 1 (vbeg v) nr I) by (try exact W1; unfold size in *; lia). cbn [bind].
    rewrite (read_size bm v (2 + 2 * nr) (vbeg v + 2 * nr + 1) ne I) by (try exact W2; unfold size in *; lia). cbn [bind].
    rewrite !(iter_in v I bm) by lia. cbn [bind].
    replace (vbeg v + (2 + 2 * nr) - 1) with (vbeg v + 2 * nr + 1) by lia.
    replace (vbeg v + (2 + 2 * nr + 2 * ne + 1) - 1) with (vbeg v + 2 * nr + 2 * ne + 2) by lia.
    unfold id_make. fold v1. rewrite M1. cbn [bind]. fold v2. rewrite M2. cbn [bind]. change (ColumnData v2 2) with values.
    change (ColumnData v2 2) with values in N2. rewrite (N2 bm). reflexivity.
  Qed.

  Lemma value_at bm c i : head <= size v -> (c = 1 \/ c = 2) -> 1 <= i <= ne ->
    dd_value bm values c i = deref (buf v) (vbeg v + (2 + 2 * nr + (c - 1) * ne + i) - 1).
  Proof.
    intros L Hc Hi. destruct (dd_head bm L) as (_ & N & _). pose proof (size_bound v I) as SB. unfold dd_value.
    assert (E : dd_verify bm values i = Ok tt).
    { unfold dd_verify. destruct (debug bm); [|reflexivity]. rewrite N. cbn [bind]. unfold verifyIndex, throw_if. rewrite u64_small by lia.
      destruct ((i <? 1) || (ne <? i)) eqn:E; [lia|reflexivity]. }
    rewrite E. cbn [bind]. unfold cd_value. rewrite N. cbn [bind]. unfold values. cbn [cd_v]. unfold head in L.
    pose proof I as [(F1 & F2 & F3) F4]. unfold max_words in F3.
    rewrite xss_word.
    - unfold sub. cbn [buf vbeg]. f_equal. lia.
    - unfold size in L. apply sub_inside; auto; lia.
    - rewrite sub_size. destruct Hc as [-> | ->]; lia.
  Qed.
  Lemma locc_at bm i : head <= size v -> 1 <= i <= ne -> dd_LOCC bm values i = Ok (loc i).
  Proof.
    intros L Hi. unfold dd_LOCC. change (cd_nc values) with 2. rewrite (value_at bm 2 i L ltac:(auto) Hi). destruct (Hloc i Hi) as [S R].
    unfold head in L. destruct (states_holds v (2 + 2 * nr + ne + i) (loc i) I S ltac:(lia)) as (w & E & Hw).
    replace (2 + 2 * nr + (2 - 1) * ne + i) with (2 + 2 * nr + ne + i) by lia. rewrite E. cbn [bind]. apply to_int_whole; [exact Hw|lia].
  Qed.
  Lemma rel_at bm i : head <= size v -> 1 <= i <= ne -> dd_relative bm as_int locb values i = Ok (rel i).
  Proof.
    intros L Hi. unfold dd_relative. rewrite (locc_at bm i L Hi). cbn [bind]. destruct (Hloc i Hi) as [_ R]. rewrite as_int_small by lia. reflexivity.
  Qed.
  Lemma right_at bm start js : head <= size v -> (forall j, In j js -> 1 <= j <= ne) ->
    dd_right bm v (dd_relative bm as_int locb values) start js = match next_start rel start js with Some l => iter bm v l | None => Ok (vend v) end.
  Proof.
    intros L. induction js as [|j js IH]; intros H; [reflexivity|]. cbn [dd_right next_start]. rewrite (rel_at bm j L) by (apply H; left; reflexivity). cbn [bind].
    destruct (start <? rel j); [reflexivity|]. apply IH. intros k Hk. apply H. right. exact Hk.
  Qed.
  Lemma next_start_above start js l : next_start rel start js = Some l -> start < l /\ exists j, In j js /\ l = rel j.
  Proof.
    induction js as [|j js IH]; [discriminate|]. cbn [next_start]. destruct (Z.ltb_spec start (rel j)) as [X|X].
    - intros E. injection E as <-. split; [exact X|]. exists j. split; [left; reflexivity|reflexivity].
    - intros E. destruct (IH E) as (A & k & Hk & B). split; [exact A|]. exists k. split; [right; exact Hk|exact B].
  Qed.
  Lemma rel_bound i : 1 <= i <= ne -> - 2 ^ 31 < rel i < 2 ^ 31.
  Proof. intros Hi. destruct (Hloc i Hi) as [_ R]. unfold rel. lia. Qed.
  Lemma later i j : 1 <= i <= ne -> In j (seqZ (i + 1) (Z.to_nat (ne - i))) -> 1 <= j <= ne.
  Proof. intros Hi Hj. apply in_seqZ in Hj. lia. Qed.

  Lemma iter_neg i : - 2 ^ 31 < i <= 0 -> iter Debug v i = Throw OutOfRange.
  Proof.
    intros H. pose proof (size_bound v I). unfold iter. rewrite (inside_vlen v I). cbn [debug]. fold (size v).
    rewrite (u64_small (size v + 1)) by lia. unfold verifyIndex, throw_if. destruct ((u64 i <? 1) || _) eqn:E; [reflexivity|].
    exfalso. unfold u64 in E. Z.div_mod_to_equations. lia.
  Qed.

  (** the i-th distribution, when the head is there *)
  Lemma dist_in bm i : head <= size v -> 1 <= i <= ne -> 1 <= rel i <= size v + 1 -> stop v ne rel i <= size v + 1 ->
    exists x, dd_distribution bm (gd bm) as_int v locb values ne i = gd bm x (loc i) (part v ne rel i) /\ inside (part v ne rel i).
  Proof.
    intros L Hi A B. pose proof (size_bound v I) as SB. pose proof I as [(F1 & F2 & F3) F4].
    assert (X : exists x, dd_value bm values 1 i = Ok x).
    { rewrite (value_at bm 1 i L ltac:(auto) Hi). apply deref_inside. unfold head, size in L. lia. }
    destruct X as [x X]. exists x. unfold dd_distribution. rewrite X. cbn [bind]. rewrite (locc_at bm i L Hi). cbn [bind]. rewrite (rel_at bm i L Hi). cbn [bind].
    rewrite (iter_in v I bm _ A). cbn [bind]. rewrite right_at by (try exact L; intros j; apply later; exact Hi).
    destruct (Hloc i Hi) as [_ R]. rewrite (u64_small (loc i)) by lia. unfold part, stop in *.
    destruct (next_start rel (rel i) _) as [l|] eqn:E.
    - destruct (next_start_above _ _ _ E) as [Q _]. rewrite (iter_in v I bm) by lia. cbn [bind]. split; [reflexivity|]. unfold size in *. apply sub_inside; auto; lia.
    - cbn [bind]. split; [do 2 f_equal; unfold size; lia|]. unfold size in *. apply sub_inside; auto; lia.
  Qed.

  Lemma dist_settles i : head <= size v -> 1 <= i <= ne ->
    ((exists d, dd_distribution Debug (gd Debug) as_int v locb values ne i = Ok d) /\ 1 <= rel i <= size v + 1 /\ stop v ne rel i <= size v + 1 /\ ok i)
    \/ exists e, dd_distribution Debug (gd Debug) as_int v locb values ne i = Throw e.
  Proof.
    intros L Hi. pose proof (size_bound v I) as SB. pose proof (rel_bound i Hi) as RB. pose proof I as [(F1 & F2 & F3) F4].
    assert (X : exists x, dd_value Debug values 1 i = Ok x).
    { rewrite (value_at Debug 1 i L ltac:(auto) Hi). apply deref_inside. unfold head, size in L. lia. }
    destruct X as [x X].
    destruct (Z.leb_spec 1 (rel i)) as [A1|A1]; [destruct (Z.leb_spec (rel i) (size v + 1)) as [A2|A2]|].
    - destruct (Z.leb_spec (stop v ne rel i) (size v + 1)) as [B|B].
      + destruct (dist_in Debug i L Hi ltac:(lia) B) as (y & E & In). rewrite E. destruct (Hgd y i Hi A1 In) as [[Q|Q] [G1 G2]]; [left|right; exact (G2 Q)].
        destruct (G1 Q Debug) as (d & Ed & _). split; [eauto|]. auto.
      + right. unfold dd_distribution. rewrite X. cbn [bind]. rewrite (locc_at Debug i L Hi). cbn [bind]. rewrite (rel_at Debug i L Hi). cbn [bind].
        rewrite (iter_in v I Debug) by lia. cbn [bind]. rewrite right_at by (try exact L; intros j; apply later; exact Hi). unfold stop in B.
        destruct (next_start rel (rel i) _) as [l|] eqn:E; [|lia]. destruct (next_start_above _ _ _ E) as (_ & j & Hj & ->).
        pose proof (rel_bound j (later i j Hi Hj)). rewrite (iter_out v I) by lia. eexists. reflexivity.
    - right. unfold dd_distribution. rewrite X. cbn [bind]. rewrite (locc_at Debug i L Hi). cbn [bind]. rewrite (rel_at Debug i L Hi). cbn [bind].
      rewrite (iter_out v I) by lia. eexists. reflexivity.
    - right. unfold dd_distribution. rewrite X. cbn [bind]. rewrite (locc_at Debug i L Hi). cbn [bind]. rewrite (rel_at Debug i L Hi). cbn [bind].
      rewrite iter_neg by lia. eexists. reflexivity.
  Qed.

  Lemma dd_ok_decides :
    (dists_ok v head ne rel ok -> forall bm, exists o, dd_make bm (gd bm) locb v = Ok o /\ dd_NB bm o = Ok nr /\ dd_N bm o = Ok ne
       /\ forall i, 1 <= i <= ne -> exists d, dd_datum bm o i = Ok d /\ P bm i d)
    /\ (~ dists_ok v head ne rel ok -> exists e, dd_make Debug (gd Debug) locb v = Throw e).
  Proof.
    pose proof (size_bound v I) as SB. split.
    - intros [L F] bm. destruct (dd_head bm L) as (-> & N & N1).
      destruct (mapM_seq (dd_distribution bm (gd bm) as_int v locb values ne) (fun k d => P bm (Z.of_nat k + 1) d) (Z.to_nat ne) 1 0) as (ds & E & Nl & R).
      { intros k Hk. destruct (F (1 + Z.of_nat k) ltac:(lia)) as (A & B & C).
        destruct (dist_in bm (1 + Z.of_nat k) L ltac:(lia) A B) as (x & -> & In).
        destruct (Hgd x (1 + Z.of_nat k) ltac:(lia) (proj1 A) In) as [_ [G _]]. destruct (G C bm) as (d & Ed & Pd). exists d. split; [exact Ed|].
        replace (Z.of_nat (0 + k) + 1) with (1 + Z.of_nat k) by lia. exact Pd. }
      rewrite E. cbn [bind]. eexists. split; [reflexivity|]. split; [exact N1|]. split; [exact N|]. intros i Hi.
      unfold dd_datum. cbn [dd_values dd_dists].
      assert (X : dd_verify bm values i = Ok tt).
      { unfold dd_verify. destruct (debug bm); [|reflexivity]. rewrite N. cbn [bind]. unfold verifyIndex, throw_if. rewrite u64_small by lia.
        destruct ((i <? 1) || (ne <? i)) eqn:X; [lia|reflexivity]. }
      rewrite X. cbn [bind]. unfold at_. rewrite u64_small by lia.
      destruct (nth_error ds (Z.to_nat (i - 1))) as [d|] eqn:Nd; [|apply nth_error_None in Nd; lia].
      exists d. split; [reflexivity|]. specialize (R _ _ Nd). replace (Z.of_nat (0 + Z.to_nat (i - 1)) + 1) with i in R by lia. exact R.
    - intros F. destruct (Z.leb_spec head (size v)) as [L|L].
      + destruct (dd_head Debug L) as (-> & _).
        destruct (mapM_settles (dd_distribution Debug (gd Debug) as_int v locb values ne) (seqZ 1 (Z.to_nat ne))) as [(r & _ & Q)|[e R]].
        { intros i Hi. apply in_seqZ in Hi. destruct (dist_settles i L ltac:(lia)) as [[[d Ed] _]|E]; [left; eauto|right; exact E]. }
        2: { rewrite R. eexists. reflexivity. }
        exfalso. apply F. split; [exact L|]. intros i Hi. destruct (Q i) as [d Ed]; [apply in_seqZ; lia|].
        destruct (dist_settles i L Hi) as [(_ & A & B & C)|[e E]]; [auto|congruence].
      + unfold dd_make. unfold head in L. destruct (Z.leb_spec 1 (size v)) as [L1|L1].
        * assert (W1 := states_holds v 1 nr I S1 ltac:(lia)). rewrite (read_round Debug v 1 _ nr I ltac:(lia) eq_refl W1) by lia. cbn [bind].
          destruct (Z.leb_spec (2 + 2 * nr) (size v)) as [L2|L2].
          -- assert (W2 := states_holds v (2 + 2 * nr) ne I S2 ltac:(lia)). replace (1 + 2 * nr + 1) with (2 + 2 * nr) by lia.
             rewrite (read_round Debug v (2 + 2 * nr) _ ne I ltac:(lia) eq_refl W2) by lia. cbn [bind]. rewrite u32_small by lia. rewrite verify_short by (assumption || lia). eexists. reflexivity.
          -- rewrite xss_short by (assumption || lia). eexists. reflexivity.
        * rewrite xss_short by (assumption || lia). eexists. reflexivity.
  Qed.
End Dists.

Lemma dd_decides {D : Type} (gd : build -> double -> Z -> view -> outcome D) v nr ne locb (loc need : Z -> Z) (P : build -> Z -> D -> Prop) :
  inside v -> 0 <= nr < 2 ^ 29 -> 0 <= ne < 2 ^ 29 -> 1 <= locb < 2 ^ 31 -> states v 1 nr -> states v (2 + 2 * nr) ne ->
  (forall i, 1 <= i <= ne -> states v (2 + 2 * nr + ne + i) (loc i) /\ 0 <= loc i < 2 ^ 31) ->
  let rel i := loc i - locb + 1 in
  (forall x i, 1 <= i <= ne -> inside (part v ne rel i) -> needs (part v ne rel i) (need i) (fun bm => gd bm x (loc i) (part v ne rel i)) (fun bm d => P bm i d)) ->
  let head := 2 + 2 * nr + 2 * ne in
  (dists_fit v head ne rel need -> forall bm, exists o, dd_make bm (gd bm) locb v = Ok o /\ dd_NB bm o = Ok nr /\ dd_N bm o = Ok ne
       /\ forall i, 1 <= i <= ne -> exists d, dd_datum bm o i = Ok d /\ P bm i d)
  /\ (~ dists_fit v head ne rel need -> exists e, dd_make Debug (gd Debug) locb v = Throw e).
Proof.
  intros I Hr He Hb S1 S2 Hl rel Hg head. apply (dd_ok_decides gd v nr ne locb loc (fun i => need i <= size (part v ne rel i)) P); auto.
  intros x i Hi _ In. split; [lia|]. destruct (Hg x i Hi In) as [A B]. split; [exact A|]. intros Q. apply B. unfold rel in *. lia.
Qed.

(** * Law 1: equiprobable energy bins *)

Lemma eq_decides v nr ne nb : inside v -> 0 <= nr < 2 ^ 29 -> 0 <= ne < 2 ^ 29 -> 0 <= nb < 2 ^ 29 -> 3 + 2 * nr + ne + ne * nb < 2 ^ 32 ->
  states v 1 nr -> states v (2 + 2 * nr) ne -> states v (3 + 2 * nr + ne) nb ->
  needs v (3 + 2 * nr + ne + ne * nb) (fun bm => SimpleLaws.eq_make bm v)
    (fun bm o => eq_NB bm o = Ok nr /\ eq_NE bm o = Ok ne /\ eq_NET bm o = Ok nb
       /\ returns (eq_NBT bm o) nr /\ returns (eq_INT bm o) nr /\ returns (eq_incidentEnergies bm o) ne
       /\ forall i, 1 <= i <= ne -> (exists e, eq_incidentEnergy bm o i = Ok e)
            /\ exists b, eq_distribution bm o i = Ok b /\ eqb_numberBins b + 1 = nb /\ returns (eqb_energies bm b) nb).
Proof.
  intros I Hr He Hb B S1 S2 S3. pose proof (size_bound v I) as SB. pose proof I as [(F1 & F2 & F3) F4]. unfold max_words in F3. assert (PN : 0 <= ne * nb) by nia.
  split.
  - intros L bm. destruct (two_counts v nr ne I Hr He S1 S2 ltac:(lia)) as [W1 W2].
    pose (v1 := sub v (vbeg v) (vbeg v + 2 * nr + 1)). pose (v2 := sub v (vbeg v + 2 * nr + 1) (vbeg v + 2 * nr + 1 + ne + 1)).
    assert (I1 : inside v1) by (unfold size in L; apply sub_inside; auto; lia).
    assert (I2 : inside v2) by (unfold size in L; apply sub_inside; auto; lia).
    destruct (cd_enough v1 2 nr I1 ltac:(lia) ltac:(lia) W1 ltac:(lia)) as [M1 N1]; [unfold v1; rewrite sub_size; lia|].
    destruct (cd_enough v2 1 ne I2 ltac:(lia) ltac:(lia) W2 ltac:(lia)) as [M2 N2]; [unfold v2; rewrite sub_size; lia|].
    assert (NET : forall bm, eq_NET_ bm v (ColumnData v1 2) (ColumnData v2 1) = Ok nb).
    { intros b. unfold eq_NET_, id_NB. rewrite (N1 b). cbn [bind]. rewrite (N2 b). cbn [bind]. replace (1 + 2 * nr + 1 + ne + 1) with (3 + 2 * nr + ne) by lia.
      counted v (3 + 2 * nr + ne) nb S3 I. reflexivity. }
    assert (EN : forall i, 1 <= i <= ne -> exists e, eq_energy_ bm (ColumnData v2 1) i = Ok e).
    { intros i Hi. unfold eq_energy_. assert (X : eq_verify bm (ColumnData v2 1) i = Ok tt).
      { unfold eq_verify. destruct (debug bm); [|reflexivity]. rewrite (N2 bm). cbn [bind]. unfold verifyIndex, throw_if. rewrite u64_small by lia.
        destruct ((i <? 1) || (ne <? i)) eqn:X; [lia|reflexivity]. }
      rewrite X. cbn [bind]. unfold cd_value. rewrite (N2 bm). cbn [bind cd_v]. rewrite xss_word; [|exact I2|unfold v2; rewrite sub_size; lia].
      apply deref_inside. unfold v2, sub. cbn [buf vbeg]. unfold size in L. lia. }
    assert (M : exists o, SimpleLaws.eq_make bm v = Ok o /\ eq_NB bm o = Ok nr /\ eq_NE bm o = Ok ne /\ eq_NET bm o = Ok nb).
    { unfold SimpleLaws.eq_make. counted v 1 nr S1 I. replace (1 + 2 * nr + 1) with (2 + 2 * nr) by lia. counted v (2 + 2 * nr) ne S2 I.
      replace (2 + 2 * nr + ne + 1) with (3 + 2 * nr + ne) by lia. counted v (3 + 2 * nr + ne) nb S3 I.
      rewrite u32_small by lia. rewrite verify_enough by (assumption || lia). cbn [bind]. unfold eq_generateBlocks.
      counted v 1 nr S1 I. replace (1 + 2 * nr + 1) with (2 + 2 * nr) by lia. counted v (2 + 2 * nr) ne S2 I.
      rewrite (adv_small _ (2 * nr)), (adv_small _ ne) by lia. unfold id_make. fold v1. rewrite M1. cbn [bind]. fold v2. rewrite M2. cbn [bind].
      match goal with |- context [mapM ?f _] => destruct (mapM_seq f (fun _ _ => True) (Z.to_nat ne) 1 0) as (ds & E & _) end.
      { intros k Hk. destruct (EN (1 + Z.of_nat k) ltac:(lia)) as [e Ee]. rewrite Ee. cbn [bind]. rewrite (NET bm). cbn [bind]. eexists. split; [reflexivity|exact Logic.I]. }
      rewrite E. cbn [bind]. eexists. split; [reflexivity|]. split; [exact (N1 bm)|]. split; [exact (N2 bm)|exact (NET bm)]. }
    destruct M as (o & M & C1 & C2 & C3). exists o. split; [exact M|].
    destruct (eq_shown bm v o (proj1 I) M) as (nr' & D1 & ne' & D2 & H). rewrite C1 in D1. apply Ok_inj in D1. subst nr'. rewrite C2 in D2. apply Ok_inj in D2. subst ne'.
    split; [exact C1|]. split; [exact C2|]. split; [exact C3|]. exact (H nb C3 B).
  - intros L. unfold SimpleLaws.eq_make. present v 1. counted v 1 nr S1 I. replace (1 + 2 * nr + 1) with (2 + 2 * nr) by lia.
    present v (2 + 2 * nr). counted v (2 + 2 * nr) ne S2 I. replace (2 + 2 * nr + ne + 1) with (3 + 2 * nr + ne) by lia.
    present v (3 + 2 * nr + ne). counted v (3 + 2 * nr + ne) nb S3 I. rewrite u32_small by lia. rewrite verify_short by (assumption || lia). eexists. reflexivity.
Qed.
