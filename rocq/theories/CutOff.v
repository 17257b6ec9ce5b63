(** Words that are cut short are rejected: for the types whose layout holds its own counts, the constructors that
    view words throw, in Debug, on every proper prefix of a complete layout (C40). *)
From Coq Require Import ZArith Bool List Lia.
From Coq Require Import ZifyBool ZifyNat.
From Verif Require Import PropLemmasBasic Truncated NuBlock.
Import ListNotations.
Open Scope Z_scope.

(** [kept] is [words] without its last words. *)
Definition cut_of (kept words : list double) : Prop := exists lost, lost <> [] /\ kept ++ lost = words.

Lemma cut_of_len kept words : cut_of kept words -> len kept < len words.
Proof. intros (lost & H & E). exact (cut_len _ _ _ E H). Qed.

Lemma word_cut v l r a x b i : content v l -> l ++ r = a ++ x :: b -> i = len a + 1 -> len a < 2 ^ 62 ->
  xss Debug v i = Ok x \/ xss Debug v i = Throw OutOfRange.
Proof.
  intros C E -> B. destruct (cut_prefix l r a b x E) as [(b' & -> & _)|S].
  - left. apply (xss_at Debug v a x b' _ (proj1 C) eq_refl).
  - right. pose proof (len_nonneg l). apply (xss_beyond v l _ C). lia.
Qed.
Lemma size_cut v l r a n b i : content v l -> l ++ r = a ++ dbl n :: b -> i = len a + 1 -> len a < 2 ^ 62 -> 0 <= n < 2 ^ 31 ->
  ixss_size Debug v i = Ok n \/ ixss_size Debug v i = Throw OutOfRange.
Proof.
  intros C E F B Bn. destruct (word_cut v l r a (dbl n) b i C E F B) as [X|X]; unfold ixss_size, ixss; rewrite X; [left|right; reflexivity].
  cbn [bind]. rewrite to_int_dbl by lia. cbn [bind]. rewrite u64_small by lia. reflexivity.
Qed.
Lemma round_cut v l r a n b i : content v l -> l ++ r = a ++ dbl n :: b -> i = len a + 1 -> len a < 2 ^ 62 -> 0 <= n < 2 ^ 31 ->
  (x <- xss Debug v i ;; round_to_size x) = Ok n \/ (x <- xss Debug v i ;; round_to_size x) = Throw OutOfRange.
Proof.
  intros C E F B Bn. destruct (word_cut v l r a (dbl n) b i C E F B) as [X|X]; rewrite X; [left|right; reflexivity].
  cbn [bind]. apply round_to_size_dbl. lia.
Qed.

Lemma rej_range {A} : rejected (@Throw A OutOfRange). Proof. right; reflexivity. Qed.
Lemma rej_std {A} : rejected (@Throw A StdException). Proof. left; reflexivity. Qed.
Lemma rej_bind {A B} (o : outcome A) (f : A -> outcome B) : rejected o -> rejected (bind o f).
Proof. intros [-> | ->]; cbn [bind]; [apply rej_std|apply rej_range]. Qed.

Ltac cutcase H := destruct H as [H|H]; rewrite H; cbn [bind]; [|apply rej_range].

(** InterpolationData *)
Lemma id_cut v nbt int words kept : id_generateXSS nbt int = Ok words -> len words < max_words ->
  cut_of kept words -> kept <> [] -> content v kept -> rejected (id_make v).
Proof.
  intros G B (lost & Hl & E) Hk C. left. unfold id_generateXSS in G.
  exact (cd_truncated v _ kept lost words G B (ltac:(vm_compute; reflexivity)) E Hl Hk C).
Qed.

Lemma ev_cut v nbt int e t u words kept : ev_generateXSS nbt int e t u = Ok words -> len words < max_words ->
  cut_of kept words -> content v kept -> rejected (ev_make Debug v).
Proof.
  intros G B (r & Hr & E) C. apply ev_generateXSS_inv in G as (E1 & E2 & ->). pose proof (cut_len _ _ _ E Hr) as L.
  unfold ev_layout in *. rewrite len_app, len_td_layout in B, L by assumption. change (len [u]) with 1 in *. unfold max_words in B.
  pose proof (len_nonneg nbt). pose proof (len_nonneg e). unfold td_layout in E. unfold ev_make.
  pose proof (round_cut v kept r [] (len nbt) ((map dbl nbt ++ map dbl int ++ dbl (len e) :: e ++ t) ++ [u]) 1 C E eq_refl) as X.
  rewrite len_nil in X. specialize (X ltac:(lia) ltac:(lia)). cutcase X.
  pose proof (round_cut v kept r (dbl (len nbt) :: map dbl nbt ++ map dbl int) (len e) (e ++ t ++ [u]) (1 + 2 * len nbt + 1) C) as Y.
  rewrite len_cons, len_app, !len_map in Y. specialize (Y ltac:(rewrite E; las) ltac:(lia) ltac:(lia) ltac:(lia)). cutcase Y.
  rewrite u32_small by lia. rewrite (verify_short v _ _ C) by lia. apply rej_std.
Qed.

Lemma ge_cut v nbt int e t bins words kept : ge_generateXSS nbt int e t bins = Ok words -> len words < max_words ->
  cut_of kept words -> content v kept -> rejected (ge_make Debug v).
Proof.
  intros G B (r & Hr & E) C. apply ge_generateXSS_inv in G as (E1 & E2 & ->). pose proof (cut_len _ _ _ E Hr) as L.
  unfold ge_layout in *. rewrite len_app, len_cons, len_td_layout in B, L by assumption. unfold max_words in B.
  pose proof (len_nonneg nbt). pose proof (len_nonneg e). pose proof (len_nonneg bins). unfold td_layout in E. unfold ge_make.
  pose proof (size_cut v kept r [] (len nbt) ((map dbl nbt ++ map dbl int ++ dbl (len e) :: e ++ t) ++ dbl (len bins) :: bins) 1 C E eq_refl) as X.
  rewrite len_nil in X. specialize (X ltac:(lia) ltac:(lia)). cutcase X.
  pose proof (size_cut v kept r (dbl (len nbt) :: map dbl nbt ++ map dbl int) (len e) (e ++ t ++ dbl (len bins) :: bins) (1 + 2 * len nbt + 1) C) as Y.
  rewrite len_cons, len_app, !len_map in Y. specialize (Y ltac:(rewrite E; las) ltac:(lia) ltac:(lia) ltac:(lia)). cutcase Y.
  pose proof (size_cut v kept r (td_layout nbt int e t) (len bins) bins (1 + 2 * len nbt + 1 + 2 * len e + 1) C) as W.
  rewrite len_td_layout in W by assumption. specialize (W ltac:(rewrite E; unfold td_layout; las) ltac:(lia) ltac:(lia) ltac:(lia)). cutcase W.
  rewrite u32_small by lia. rewrite (verify_short v _ _ C) by lia. apply rej_std.
Qed.

Lemma wa_cut v nbta inta xa ya nbtb intb xb yb u la lb kept :
  td_generateXSS nbta inta xa ya = Ok la -> td_generateXSS nbtb intb xb yb = Ok lb ->
  len (wa_generateXSS la lb u) < max_words ->
  cut_of kept (wa_generateXSS la lb u) -> content v kept -> rejected (wa_make Debug v).
Proof.
  intros Ga Gb B (r & Hr & E) C. apply td_generateXSS_inv in Ga as (E1 & E2 & ->). apply td_generateXSS_inv in Gb as (E3 & E4 & ->).
  pose proof (cut_len _ _ _ E Hr) as L. unfold wa_generateXSS in *.
  rewrite !len_app, !len_td_layout in B, L by assumption. change (len [u]) with 1 in *. unfold max_words in B.
  pose proof (len_nonneg nbta). pose proof (len_nonneg xa). pose proof (len_nonneg nbtb). pose proof (len_nonneg xb). unfold wa_make.
  pose proof (size_cut v kept r [] (len nbta) ((map dbl nbta ++ map dbl inta ++ dbl (len xa) :: xa ++ ya) ++ td_layout nbtb intb xb yb ++ [u]) 1 C E eq_refl) as X.
  rewrite len_nil in X. specialize (X ltac:(lia) ltac:(lia)). cutcase X.
  pose proof (size_cut v kept r (dbl (len nbta) :: map dbl nbta ++ map dbl inta) (len xa) (xa ++ ya ++ td_layout nbtb intb xb yb ++ [u]) (1 + 2 * len nbta + 1) C) as Y.
  rewrite len_cons, len_app, !len_map in Y. specialize (Y ltac:(rewrite E; unfold td_layout at 1; las) ltac:(lia) ltac:(lia) ltac:(lia)). cutcase Y.
  pose proof (size_cut v kept r (td_layout nbta inta xa ya) (len nbtb) ((map dbl nbtb ++ map dbl intb ++ dbl (len xb) :: xb ++ yb) ++ [u])
                (2 + 2 * len nbta + 2 * len xa + 1) C) as W.
  rewrite len_td_layout in W by assumption. specialize (W ltac:(rewrite E; unfold td_layout; las) ltac:(lia) ltac:(lia) ltac:(lia)). cutcase W.
  pose proof (size_cut v kept r (td_layout nbta inta xa ya ++ dbl (len nbtb) :: map dbl nbtb ++ map dbl intb) (len xb) (xb ++ yb ++ [u])
                (2 + 2 * len nbta + 2 * len xa + 1 + 2 * len nbtb + 1) C) as V.
  rewrite len_app, len_cons, len_app, !len_map, len_td_layout in V by assumption.
  specialize (V ltac:(rewrite E; unfold td_layout; las) ltac:(lia) ltac:(lia) ltac:(lia)). cutcase V.
  rewrite u32_small by lia. rewrite (verify_short v _ _ C) by lia. apply rej_std.
Qed.

(** A table behind k fixed words: at least those words must be there. *)
Lemma pt_cut v pre nbt int x y words kept : pt_generateXSS pre nbt int x y = Ok words -> len words < max_words ->
  cut_of kept words -> len pre <= len kept -> content v kept -> rejected (pt_generateBlocks Debug (len pre) v).
Proof.
  intros G B (r & Hr & E) Hk C. apply pt_generateXSS_inv in G as (E1 & E2 & ->).
  assert (exists k, kept = pre ++ k /\ k ++ r = td_layout nbt int x y) as (k & -> & F).
  { clear -E Hk. revert kept E Hk. induction pre as [|p pre IH]; intros kept E Hk; [exists kept; auto|].
    rewrite len_cons in Hk. destruct kept as [|z kept]; [rewrite len_nil in Hk; pose proof (len_nonneg pre); lia|].
    cbn [app] in E. injection E as -> E. rewrite len_cons in Hk. destruct (IH kept E ltac:(lia)) as (k & -> & F). exists k; auto. }
  unfold pt_generateBlocks. apply rej_bind.
  pose proof (sub_content_tail v pre k (vbeg v + len pre) C eq_refl) as Ck.
  apply (td_truncated _ nbt int x y (td_layout nbt int x y) k r (td_generateXSS_ok _ _ _ _ E1 E2)); auto.
  rewrite len_app in B. pose proof (len_nonneg pre). lia.
Qed.

Lemma px_cut v index values kept : len (px_generateXSS index values) < max_words ->
  cut_of kept (px_generateXSS index values) -> content v kept -> rejected (px_make Debug v).
Proof.
  intros B (r & Hr & E) C. pose proof (cut_len _ _ _ E Hr) as L. unfold px_generateXSS, max_words in *. rewrite !len_cons in B, L. pose proof (len_nonneg values).
  unfold px_make, px_numberValues.
  destruct (word_cut v kept r [dbl 13; dbl index] (dbl (len values)) values 3 C E eq_refl ltac:(change (len [dbl 13; dbl index]) with 2; lia)) as [X|X]; rewrite X; cbn [bind]; [|apply rej_range].
  rewrite trunc_to_size_dbl by lia. cbn [bind]. rewrite u32_small by lia. rewrite (verify_short v _ _ C) by lia. apply rej_std.
Qed.
Lemma pf_cut v cs kept : len (pf_generateXSS cs) < max_words ->
  cut_of kept (pf_generateXSS cs) -> content v kept -> rejected (pf_make Debug v).
Proof.
  intros B (r & Hr & E) C. pose proof (cut_len _ _ _ E Hr) as L. unfold pf_generateXSS, max_words in *. rewrite !len_cons in B, L. pose proof (len_nonneg cs).
  unfold pf_make, pf_NC.
  pose proof (size_cut v kept r [dbl 1] (len cs) cs 2 C E eq_refl ltac:(change (len [dbl 1]) with 1; lia) ltac:(lia)) as X. cutcase X.
  rewrite (u32_small (len cs)) by lia. rewrite u32_small by lia. rewrite (verify_short v _ _ C) by lia. apply rej_std.
Qed.

(** FissionMultiplicityBlock *)
Lemma nu_data_cut v i words kept : nu_valid i -> nu_layout i = words -> len words < max_words ->
  cut_of kept words -> kept <> [] -> content v kept -> rejected (nu_generateData Debug v).
Proof.
  intros Hi G B (r & Hr & E) Hk C. destruct kept as [|w kept]; [congruence|].
  unfold nu_generateData. rewrite (deref_has v w kept (proj1 C)). cbn [bind].
  destruct i as [cs|nbt int x y]; cbn [nu_layout nu_valid] in G, Hi; subst words.
  - assert (w = dbl 1) as -> by (cbn [app] in E; unfold pf_generateXSS in E; congruence).
    rewrite (round_to_u32_dbl 1) by lia. cbn [bind Z.eqb Pos.eqb]. apply rej_bind.
    apply (pf_cut v cs (dbl 1 :: kept)); [exact B|exists r; auto|exact C].
  - destruct Hi as [E1 E2]. cbn [app] in E. assert (w = dbl 2) as -> by congruence. assert (kept ++ r = td_layout nbt int x y) as E' by congruence. clear E. rename E' into E.
    rewrite (round_to_u32_dbl 2) by lia. cbn [bind Z.eqb Pos.eqb]. apply rej_bind.
    refine (pt_cut v [dbl 2] nbt int x y (dbl 2 :: td_layout nbt int x y) (dbl 2 :: kept) _ B _ _ C);
      [unfold pt_generateXSS; rewrite td_generateXSS_ok by assumption; reflexivity
      |exists r; split; [exact Hr|cbn [app]; rewrite E; reflexivity]|].
    change (len [dbl 2]) with 1. rewrite len_cons. pose proof (len_nonneg kept). lia.
Qed.
Lemma nu_cut v i words kept : nu_valid i -> nu_layout i = words -> len words < max_words ->
  cut_of kept words -> kept <> [] -> content v kept -> rejected (nu_make Debug v).
Proof.
  intros Hi G B K Hk C. pose proof (nu_data_cut v i words kept Hi G B K Hk C) as R. unfold nu_make, nu_generateBlocks.
  rewrite (vlen_content _ _ C). destruct kept as [|w kept]; [congruence|]. rewrite len_cons. pose proof (len_nonneg kept).
  destruct (Z.ltb_spec 0 (1 + len kept)); [|lia]. rewrite (xss_at Debug v [] w kept 1 (proj1 C) eq_refl). cbn [bind].
  assert (SFltb w (dbl 0) = false) as ->; [|apply rej_bind; exact R].
  destruct K as (r & _ & E). destruct i as [cs|nbt int x y]; cbn [nu_layout] in G; subst words; cbn [app] in E.
  - assert (w = dbl 1) as -> by (unfold pf_generateXSS in E; congruence). reflexivity.
  - assert (w = dbl 2) as -> by congruence. reflexivity.
Qed.
(** With a prompt and a total multiplicity: cut inside the total one. *)
Lemma nu_cut_total v p t kept : nu_valid p -> nu_valid t -> len (nu_layout p ++ nu_layout t) + 1 < max_words ->
  cut_of kept (nu_layout t) -> kept <> [] ->
  content v (SFopp (dbl (len (nu_layout p))) :: nu_layout p ++ kept) -> rejected (nu_make Debug v).
Proof.
  intros Hp Ht B K Hk C. pose proof (cut_of_len _ _ K) as LK. rewrite len_app in B. pose proof (len_nonneg kept). unfold max_words in B.
  destruct (nu_layout_pos p) as (w & rw & _ & _ & Lp). set (lp := nu_layout p) in *.
  rewrite dbl_opp in C by lia. pose proof C as [Hv V].
  unfold nu_make, nu_generateBlocks. rewrite (vlen_content _ _ C), len_cons, len_app.
  destruct (Z.ltb_spec 0 (1 + (len lp + len kept))); [|lia].
  rewrite (xss_at Debug v [] (dbl (- len lp)) (lp ++ kept) 1 Hv eq_refl). cbn [bind].
  rewrite dbl_ltb_0 by lia. destruct (Z.ltb_spec (- len lp) 0); [|lia].
  rewrite (deref_has v _ _ Hv). cbn [bind]. unfold abs_round_to_u32 at 1. rewrite sf_round_dbl by lia.
  destruct (Z.ltb_spec (Z.abs (- len lp)) (2 ^ 32)); [|lia]. cbn [bind]. rewrite u32_small by lia.
  assert (C1 : content (sub v (vbeg v + 1) (vbeg v + (Z.abs (- len lp) + 1))) lp).
  { apply (sub_content v [dbl (- len lp)] lp kept); [exact Hv|reflexivity|]. change (len [dbl (- len lp)]) with 1. lia. }
  assert (C2 : content (sub v (vbeg v + (Z.abs (- len lp) + 1)) (vend v)) kept).
  { apply (sub_content_tail v (dbl (- len lp) :: lp) kept); [exact C|rewrite len_cons; lia]. }
  destruct (nu_data_has Debug _ p Hp (content_has _ _ C1)) as (d & -> & _). cbn [bind]. apply rej_bind.
  refine (nu_data_cut _ t (nu_layout t) kept Ht eq_refl _ K Hk C2). unfold max_words; lia.
Qed.

Lemma hpd_cut v index p h words kept : hpd_generateXSS index p h = Ok words -> len words < max_words ->
  cut_of kept words -> content v kept -> rejected (hpd_make Debug v).
Proof.
  intros G B (r & Hr & E) C. unfold hpd_generateXSS, throw_if in G. destruct (Z.eqb_spec (len h) (len p)) as [F|]; [|discriminate].
  cbn [negb bind] in G. apply Ok_inj in G. subst words. pose proof (cut_len _ _ _ E Hr) as L. unfold max_words in B.
  rewrite !len_cons, len_app in B, L. pose proof (len_nonneg p). unfold hpd_make, hpd_numberValues.
  destruct (word_cut v kept r [dbl index] (dbl (len p)) (p ++ h) 2 C E eq_refl ltac:(change (len [dbl index]) with 1; lia)) as [X|X]; rewrite X; cbn [bind]; [|apply rej_range].
  rewrite trunc_to_size_dbl by lia. cbn [bind]. rewrite (u32_small (len p)) by lia. rewrite u32_small by lia. rewrite (verify_short v _ _ C) by lia. apply rej_std.
Qed.
Lemma yp_cut v mts kept : len (yp_generateXSS mts) < max_words ->
  cut_of kept (yp_generateXSS mts) -> kept <> [] -> content v kept -> rejected (yp_make Debug v).
Proof.
  intros B (r & Hr & E) Hk C. pose proof (cut_len _ _ _ E Hr) as L. unfold yp_generateXSS, max_words in *. rewrite !len_cons, !len_map in B, L. pose proof (len_nonneg mts).
  destruct kept as [|w kept]; [congruence|]. cbn [app] in E. injection E as -> E. rewrite len_cons in L. pose proof (len_nonneg kept).
  unfold yp_make, yp_NYP, vempty. pose proof C as [Hv V]. rewrite len_cons in V. destruct (Z.eqb_spec (vbeg v) (vend v)); [lia|].
  rewrite (ixss_at Debug v [] (len mts) kept 1 Hv eq_refl) by lia. cbn [bind]. rewrite u32_small by lia.
  destruct (Z.eqb_spec (len mts) 0); [lia|]. rewrite u32_small by lia. rewrite (verify_short v _ _ C) by (rewrite len_cons; lia). apply rej_std.
Qed.

(** Blocks whose counts come from elsewhere: fewer words than the count asks for. *)
Lemma nt_short v l n : content v l -> len l < n -> nt_make v n = Throw StdException.
Proof. intros C H. unfold nt_make. rewrite (verify_short v l n C H). reflexivity. Qed.
Lemma ix_short v l n : content v l -> 0 <= n -> 10 * n < 2 ^ 32 -> len l < 10 * n -> ix_make v n = Throw StdException.
Proof. intros C Hn Bn H. unfold ix_make. rewrite u32_small by lia. rewrite (verify_short v l _ C H). reflexivity. Qed.

(** * Blocks with locators *)

Lemma iter_beyond v l i : content v l -> len l + 1 < i < 2 ^ 64 -> iter Debug v i = Throw OutOfRange.
Proof.
  intros C H. pose proof (len_nonneg l). pose proof (has_bounds _ _ (proj1 C)). unfold iter. rewrite (u64_small i) by lia. cbn [debug].
  rewrite (vlen_content _ _ C). unfold verifyIndex, throw_if. rewrite u64_small by lia.
  destruct ((i <? 1) || (len l + 1 <? i)) eqn:E; [reflexivity|lia].
Qed.
Lemma iter_cut v l i : content v l -> 1 <= i < 2 ^ 64 ->
  (i <= len l + 1 /\ iter Debug v i = Ok (vbeg v + i - 1)) \/ (len l + 1 < i /\ iter Debug v i = Throw OutOfRange).
Proof.
  intros C H. destruct (Z_le_gt_dec i (len l + 1)) as [L|L].
  - left. split; [exact L|]. apply (iter_has Debug v l i (proj1 C)). destruct C as [_ ->]. lia.
  - right. split; [lia|]. apply (iter_beyond v l i C). lia.
Qed.

Definition ok_or_rejected {A} (o : outcome A) : Prop := (exists a, o = Ok a) \/ rejected o.
Lemma mapM_rejected {A B} (f : A -> outcome B) xs x : (forall y, In y xs -> ok_or_rejected (f y)) ->
  In x xs -> rejected (f x) -> rejected (mapM f xs).
Proof.
  intros H I R. induction xs as [|a xs IH]; [destruct I|]. cbn [mapM]. destruct (H a (or_introl eq_refl)) as [[y E]|E].
  - rewrite E. cbn [bind]. destruct I as [-> |I]; [rewrite E in R; destruct R as [R|R]; discriminate|].
    apply rej_bind. apply IH; [intros z Hz; apply H; right; exact Hz|exact I].
  - apply rej_bind. exact E.
Qed.
Lemma seqZ_In a n x : In x (seqZ a n) <-> a <= x < a + Z.of_nat n.
Proof.
  revert a. induction n as [|n IH]; intros a; cbn [seqZ].
  - split; [intros []|lia].
  - cbn [In]. rewrite IH. lia.
Qed.
Lemma mapM_first_rejected {A B} (f : A -> outcome B) x xs : rejected (f x) -> rejected (mapM f (x :: xs)).
Proof. intros H. cbn [mapM]. apply rej_bind. exact H. Qed.

Section BlCut.
  Context {D : Type} (gd : Z -> view -> outcome D) (v : view) (locator : bool) (cs : list (list double)) (kept lost : list double).
  Hypothesis B : len (bl_layout locator cs) < max_words.
  Hypothesis Hl : lost <> [].
  Hypothesis E : kept ++ lost = bl_layout locator cs.
  Hypothesis C : content v kept.
  Hypothesis Hfull : forall c loc w, In c cs -> content w c -> exists d, gd loc w = Ok d.
  Hypothesis Hcut : forall pre c k loc w, cs = pre ++ [c] -> cut_of k c -> content w k -> rejected (gd loc w).

  Let locs := map dbl (starts (if locator then 1 else 0) cs).
  Lemma blcut_locs : len locs = len cs.
  Proof. unfold locs. rewrite len_map. unfold len. rewrite length_starts. reflexivity. Qed.
  Lemma blcut_bound : len cs + len (concat cs) < 2 ^ 31.
  Proof. rewrite len_bl_layout in B. exact B. Qed.

  Lemma blcut_LLOC pre c post i : cs = pre ++ c :: post -> i = len pre + 1 ->
    bl_LLOC_ Debug v (len cs) locator i = Ok (1 + len (concat pre)) \/ bl_LLOC_ Debug v (len cs) locator i = Throw OutOfRange.
  Proof.
    intros F ->. pose proof blcut_bound as B'. pose proof F as F0. apply (f_equal len) in F0. rewrite len_app, len_cons in F0.
    assert (len (concat cs) = len (concat pre) + len c + len (concat post)) by (rewrite F, concat_app; cbn [concat]; rewrite !len_app; lia).
    pose proof (len_nonneg pre); pose proof (len_nonneg (concat pre)); pose proof (len_nonneg post); pose proof (len_nonneg (concat post)); pose proof (len_nonneg c).
    unfold bl_LLOC_, bl_verify. rewrite u64_small by lia. rewrite check_verifyIndex by lia. cbn [bind].
    pose proof (word_cut v kept lost (map dbl (starts (if locator then 1 else 0) pre)) (dbl ((if locator then 1 else 0) + len (concat pre)))
      (map dbl (starts ((if locator then 1 else 0) + len (concat pre) + len c) post) ++ concat cs) (len pre + 1) C) as X.
    unfold ixss. destruct X as [X|X].
    - rewrite E. unfold bl_layout. rewrite F at 1. rewrite starts_app, map_app. cbn [starts map]. las.
    - rewrite len_map. unfold len. rewrite length_starts. reflexivity.
    - rewrite len_map. unfold len in *. rewrite length_starts. lia.
    - left. rewrite X. cbn [bind]. rewrite to_int_dbl by (destruct locator; lia). cbn [bind]. f_equal. destruct locator; rewrite u64_small; lia.
    - right. rewrite X. reflexivity.
  Qed.

  Definition bl_one (index : Z) : outcome D :=
    let data := u64 (vbeg v + len cs - vbeg v) + 1 in
    loc <- bl_LLOC_ Debug v (len cs) locator index ;;
    left <- iter Debug v (data + loc - 1) ;;
    right <- (if index =? len cs then Ok (vend v)
              else l <- bl_LLOC_ Debug v (len cs) locator (index + 1) ;; iter Debug v (data + l - 1)) ;;
    gd loc (sub v left right).

  Lemma blcut_kept : len cs <= len kept -> exists d, kept = locs ++ d /\ d ++ lost = concat cs.
  Proof.
    intros G. assert (E' : kept ++ lost = locs ++ concat cs) by exact E. rewrite <- blcut_locs in G. clear -E' G. revert E' G. generalize locs.
    induction kept as [|x k IH]; intros ls E G.
    - destruct ls as [|y ls]; [exists []; auto|]. rewrite len_nil, len_cons in G. pose proof (len_nonneg ls). lia.
    - destruct ls as [|y ls]; [exists (x :: k); auto|]. cbn [app] in E. rewrite !len_cons in G.
      assert (x = y) as -> by congruence. destruct (IH ls ltac:(congruence) ltac:(lia)) as (d & -> & F). exists d; auto.
  Qed.

  Lemma blcut_one pre c post : cs = pre ++ c :: post ->
    ok_or_rejected (bl_one (len pre + 1)) /\ (post = [] -> rejected (bl_one (len pre + 1))).
  Proof.
    intros F. pose proof blcut_bound as B'. pose proof F as F0. apply (f_equal len) in F0. rewrite len_app, len_cons in F0.
    assert (Lc : len (concat cs) = len (concat pre) + len c + len (concat post)) by (rewrite F, concat_app; cbn [concat]; rewrite !len_app; lia).
    pose proof (len_nonneg pre); pose proof (len_nonneg (concat pre)); pose proof (len_nonneg post); pose proof (len_nonneg (concat post)); pose proof (len_nonneg c).
    assert (R : rejected (bl_one (len pre + 1)) -> ok_or_rejected (bl_one (len pre + 1)) /\ (post = [] -> rejected (bl_one (len pre + 1))))
      by (intros R; split; [right; exact R|intros _; exact R]).
    unfold bl_one in *. replace (vbeg v + len cs - vbeg v) with (len cs) in * by lia. rewrite (u64_small (len cs)) in * by lia.
    destruct (blcut_LLOC pre c post _ F eq_refl) as [X|X]; rewrite X in *; cbn [bind] in *; [|apply R; apply rej_range].
    replace (len cs + 1 + (1 + len (concat pre)) - 1) with (len cs + 1 + len (concat pre)) in * by lia.
    destruct (iter_cut v kept (len cs + 1 + len (concat pre)) C ltac:(lia)) as [[G Y]|[_ Y]]; rewrite Y in *; cbn [bind] in *; [|apply R; apply rej_range].
    destruct (blcut_kept ltac:(lia)) as (d & Ek & Ed).
    { pose proof blcut_locs as Ll. assert (Lk : len kept = len cs + len d) by (rewrite Ek, len_app; lia).
      assert (Ld : len d + len lost = len (concat cs)) by (rewrite <- Ed, len_app; reflexivity). pose proof (len_nonneg lost).
      assert (exists k, d = concat pre ++ k /\ k ++ lost = c ++ concat post) as (k & Edk & Ekl).
      { assert (Q : d ++ lost = concat pre ++ (c ++ concat post)) by (rewrite Ed, F, concat_app; reflexivity).
        assert (Q' : len (concat pre) <= len d) by lia. clear -Q Q'. revert Q Q'. generalize (concat pre). intros p. revert d. induction p as [|x p IH]; intros d Q Q'; [exists d; auto|].
        rewrite len_cons in Q'. destruct d as [|y d]; [rewrite len_nil in Q'; pose proof (len_nonneg p); lia|]. cbn [app] in Q. rewrite len_cons in Q'.
        assert (x = y) as -> by congruence. destruct (IH d ltac:(congruence) ltac:(lia)) as (k & -> & G). exists k; auto. }
      assert (Lk' : len d = len (concat pre) + len k) by (rewrite Edk, len_app; reflexivity).
      destruct post as [|c' post].
      + destruct (Z.eqb_spec (len pre + 1) (len cs)) as [_|N]; [|rewrite len_nil in F0; lia]. cbn [bind] in *.
        apply R. apply (Hcut pre c k); [exact F| |].
        * exists lost. split; [exact Hl|]. cbn [concat] in Ekl. rewrite app_nil_r in Ekl. exact Ekl.
        * apply (sub_content_tail v (locs ++ concat pre) k); [rewrite <- app_assoc, <- Edk, <- Ek; exact C|rewrite len_app; lia].
      + rewrite len_cons in F0. pose proof (len_nonneg post). destruct (Z.eqb_spec (len pre + 1) (len cs)) as [N|_]; [lia|].
        destruct (blcut_LLOC (pre ++ [c]) c' post (len pre + 1 + 1)) as [W|W]; [rewrite <- app_assoc; exact F|rewrite len_app, len_cons, len_nil; lia| |].
        2:{ rewrite W in *. cbn [bind] in *. apply R. apply rej_range. }
        rewrite W in *. cbn [bind] in *. rewrite concat_app, len_app in *. cbn [concat] in *. rewrite app_nil_r in *.
        replace (len cs + 1 + (1 + (len (concat pre) + len c)) - 1) with (len cs + 1 + len (concat pre) + len c) in * by lia.
        destruct (iter_cut v kept (len cs + 1 + len (concat pre) + len c) C ltac:(lia)) as [[G' Y']|[_ Y']]; rewrite Y' in *; cbn [bind] in *; [|apply R; apply rej_range].
        split; [|intros; discriminate]. left. apply (Hfull c); [rewrite F; apply in_or_app; right; left; reflexivity|].
        assert (exists k', k = c ++ k') as (k' & ->).
        { assert (Q' : len c <= len k) by lia. clear -Ekl Q'. revert k Ekl Q'. induction c as [|x p IH]; intros k Q Q'; [exists k; auto|].
          rewrite len_cons in Q'. destruct k as [|y k]; [rewrite len_nil in Q'; pose proof (len_nonneg p); lia|]. cbn [app] in Q. rewrite len_cons in Q'.
          assert (x = y) as -> by congruence. destruct (IH k ltac:(congruence) ltac:(lia)) as (k' & ->). exists k'; auto. }
        apply (sub_content v (locs ++ concat pre) c k'); [|rewrite len_app; lia|rewrite len_app; lia].
        rewrite <- app_assoc. rewrite <- Edk, <- Ek. exact (proj1 C). }
  Qed.

  Lemma bl_cut : rejected (bl_make Debug gd v (vbeg v + len cs) (len cs) locator).
  Proof.
    pose proof blcut_bound as B'. pose proof (len_nonneg cs). pose proof (len_nonneg (concat cs)).
    unfold bl_make, throw_if. rewrite s64_small by lia. replace (vbeg v + len cs - vbeg v) with (len cs) by lia.
    destruct (Z.ltb_spec (len cs) (len cs)); [lia|]. cbn [bind]. apply rej_bind. unfold bl_generateBlocks.
    assert (Hne : cs <> []).
    { intros F. pose proof E as E0. rewrite F in E0. unfold bl_layout in E0. cbn [starts concat map app] in E0.
      apply app_eq_nil in E0 as [_ E0]. exact (Hl E0). }
    destruct (exists_last Hne) as (pre & c & F).
    apply (mapM_rejected _ _ (len pre + 1)).
    - intros y Iy. apply seqZ_In in Iy. rewrite Z2Nat.id in Iy by lia.
      destruct (nth_error cs (Z.to_nat (y - 1))) as [d|] eqn:Ny; [|apply nth_error_None in Ny; unfold len in Iy; lia].
      destruct (nth_split_len _ _ _ Ny) as (p & q & Fq & Lp).
      assert (y = len p + 1) as -> by (unfold len; lia). exact (proj1 (blcut_one p d q Fq)).
    - apply seqZ_In. rewrite Z2Nat.id by lia. pose proof F as F0. apply (f_equal len) in F0. rewrite len_app, len_cons, len_nil in F0. pose proof (len_nonneg pre). lia.
    - exact (proj2 (blcut_one pre c [] F) eq_refl).
  Qed.
End BlCut.
