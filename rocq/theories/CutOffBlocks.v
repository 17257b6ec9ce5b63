(** Cut blocks (C40): equiprobable bins, blocks with locators, blocks whose size is given by the caller. *)
From Coq Require Import ZArith Bool List Lia Permutation.
From Coq Require Import ZifyBool ZifyNat.
From Verif Require Import PropsBlocks Truncated AtomicBlocks ThermalBlocks SimpleLaws CutOff CutOffDist.
Import ListNotations.
Open Scope Z_scope.

(** Law 1 *)
Lemma eqb_cut v nbt int net ds kept : len int = len nbt -> Forall (fun d => len (snd d) = net) ds -> 0 <= net ->
  len (eq_layout nbt int net ds) < max_words ->
  cut_of kept (eq_layout nbt int net ds) -> content v kept -> rejected (SimpleLaws.eq_make Debug v).
Proof.
  intros Hi Hb Hn B (r & Hr & E) C. pose proof (cut_len _ _ _ E Hr) as L. rewrite (eq_len nbt int net ds Hi Hb) in B, L. unfold max_words in B.
  pose proof (len_nonneg nbt). pose proof (len_nonneg ds). unfold eq_layout, id_layout in E. unfold SimpleLaws.eq_make.
  assert (0 <= len ds * net) by nia.
  pose proof (size_cut v kept r [] (len nbt) ((map dbl nbt ++ map dbl int) ++ dbl (len ds) :: map fst ds ++ dbl net :: concat (map snd ds)) 1 C E eq_refl) as X.
  rewrite len_nil in X. specialize (X ltac:(lia) ltac:(lia)). cutcase X.
  pose proof (size_cut v kept r (dbl (len nbt) :: map dbl nbt ++ map dbl int) (len ds) (map fst ds ++ dbl net :: concat (map snd ds)) (1 + 2 * len nbt + 1) C) as Y.
  rewrite len_cons, len_app, !len_map in Y. specialize (Y ltac:(rewrite E; las) ltac:(lia) ltac:(lia) ltac:(lia)). cutcase Y.
  destruct (Z.eq_dec (len ds) 0) as [Z0|Z0].
  - destruct (Z_lt_ge_dec (len kept) (1 + 2 * len nbt + 1 + len ds + 1)) as [S|S].
    + unfold ixss_size, ixss. rewrite (xss_beyond v kept _ C) by lia. apply rej_range.
    + exfalso. nia.
  - assert (net < 2 ^ 31) by nia.
    pose proof (size_cut v kept r ((dbl (len nbt) :: map dbl nbt ++ map dbl int) ++ dbl (len ds) :: map fst ds) net (concat (map snd ds)) (1 + 2 * len nbt + 1 + len ds + 1) C) as W.
    rewrite len_app, !len_cons, len_app, !len_map in W. specialize (W ltac:(rewrite E; las) ltac:(lia) ltac:(lia) ltac:(lia)). cutcase W.
    rewrite u32_small by nia. rewrite (verify_short v _ _ C) by nia. apply rej_std.
Qed.

(** SIG, SWD and the cross sections of a dosimetry table *)
Lemma sig_cut v es kept : Forall (fun e => 0 <= sig_index e < 2 ^ 31) es -> len (bl_layout true (map sig_words es)) < max_words ->
  cut_of kept (bl_layout true (map sig_words es)) -> content v kept ->
  rejected (bl_make Debug (sig_generateData Debug) v (vbeg v + len es) (len es) true).
Proof.
  intros V B (r & Hr & E) C.
  pose proof (bl_cut (sig_generateData Debug) v true (map sig_words es) kept r B Hr E C) as X. rewrite len_map in X. apply X; clear X.
  - intros c loc w Ic Cw. apply in_map_iff in Ic as ([i vs] & <- & Ie). rewrite Forall_forall in V. specialize (V _ Ie). cbn [sig_index] in V.
    exists w. unfold sig_generateData. exact (proj1 (xs_has Debug w i vs V (content_has _ _ Cw))).
  - intros pre c k loc w F (q & Hq & Eq) Cw. unfold sig_generateData.
    assert (Ic : In c (map sig_words es)) by (rewrite F; apply in_elt). apply in_map_iff in Ic as ([i vs] & <- & Ie).
    apply (xs_truncated w i vs k q); try assumption.
    rewrite len_bl_layout in B. unfold max_words in *.
    assert (len (xs_generateXSS i vs) <= len (concat (map sig_words es))).
    { rewrite F, concat_app, len_app. cbn [concat sig_words]. rewrite app_nil_r. pose proof (len_nonneg (concat pre)). lia. }
    unfold xs_generateXSS in *. rewrite !len_cons in *. pose proof (len_nonneg (map sig_words es)). lia.
Qed.
Lemma sigd_cut v cs kept : Forall (fun c => exists nbt int x y, td_generateXSS nbt int x y = Ok c) cs -> len (bl_layout true cs) < max_words ->
  cut_of kept (bl_layout true cs) -> content v kept ->
  rejected (bl_make Debug (sigd_gd Debug) v (vbeg v + len cs) (len cs) true).
Proof.
  intros V B (r & Hr & E) C. rewrite Forall_forall in V. apply (bl_cut (sigd_gd Debug) v true cs kept r B Hr E C).
  - intros c loc w Ic Cw. destruct (V _ Ic) as (nbt & int & x & y & G). apply td_generateXSS_inv in G as (E1 & E2 & ->).
    destruct (td_make_has Debug _ _ _ _ _ E1 E2 (content_has _ _ Cw)) as (o & M & _). exists o. exact M.
  - intros pre c k loc w F (q & Hq & Eq) Cw.
    assert (Ic : In c cs) by (rewrite F; apply in_elt). destruct (V _ Ic) as (nbt & int & x & y & G).
    apply (td_truncated w nbt int x y c k q G); try assumption.
    rewrite len_bl_layout in B. unfold max_words in *.
    assert (len c <= len (concat cs)) by (rewrite F, concat_app, len_app; cbn [concat]; rewrite app_nil_r; pose proof (len_nonneg (concat pre)); lia).
    pose proof (len_nonneg cs). lia.
Qed.
Lemma swd_cut v cs kept : Forall (fun c => exists interp x p cdf, tp_generateXSS interp x p cdf [] = Ok c /\ - 2 ^ 31 <= interp < 2 ^ 31) cs ->
  len (bl_layout false cs) < max_words ->
  cut_of kept (bl_layout false cs) -> content v kept ->
  rejected (bl_make Debug (swd_gd Debug) v (vbeg v + len cs) (len cs) false).
Proof.
  intros V B (r & Hr & E) C. rewrite Forall_forall in V. apply (bl_cut (swd_gd Debug) v false cs kept r B Hr E C).
  - intros c loc w Ic Cw. destruct (V _ Ic) as (i & x & p & cdf & G & Bi). apply tp_generateXSS_inv in G as (A & ->).
    exists w. exact (proj1 (tp_has Debug w i x p cdf [] A Bi (content_has _ _ Cw))).
  - intros pre c k loc w F (q & Hq & Eq) Cw.
    assert (Ic : In c cs) by (rewrite F; apply in_elt). destruct (V _ Ic) as (i & x & p & cdf & G & _).
    apply (tp_truncated w i x p cdf c k q G); try assumption.
    rewrite len_bl_layout in B. unfold max_words in *.
    assert (len c <= len (concat cs)) by (rewrite F, concat_app, len_app; cbn [concat]; rewrite app_nil_r; pose proof (len_nonneg (concat pre)); lia).
    pose proof (len_nonneg cs). lia.
Qed.

(** Sizes given by the caller *)
Lemma two_short v l lo hi : content v l -> len l < 2 -> SimpleLaws.two_make v lo hi = Throw StdException.
Proof. intros C H. unfold SimpleLaws.two_make. rewrite (verify_short v l _ C H). reflexivity. Qed.
Lemma ty_short v l n : content v l -> len l < n -> ty_make Debug v n = Throw StdException.
Proof. intros C H. unfold ty_make. rewrite (verify_short v l _ C H). reflexivity. Qed.
Lemma iu_short v l n : content v l -> 0 <= n -> 12 * n < 2 ^ 32 -> len l < 12 * n -> iu_make v n = Throw StdException.
Proof. intros C Hn Bn H. unfold iu_make. rewrite u32_small by lia. rewrite (verify_short v l _ C H). reflexivity. Qed.
Lemma dc_short v l nc : content v l -> 0 <= nc < 2 ^ 32 -> len l < 1 + nc -> dc_make nc v = Throw StdException.
Proof. intros C Hn H. unfold dc_make, throw_if. rewrite (vlen_content _ _ C), u64_small by lia. destruct (Z.ltb_spec (len l) (1 + nc)); [reflexivity|lia]. Qed.
Lemma dq_short v l nc : content v l -> 0 <= nc < 2 ^ 32 -> len l < 3 + nc -> dq_make nc v = Throw StdException.
Proof. intros C Hn H. unfold dq_make, throw_if. rewrite (vlen_content _ _ C), u64_small by lia. destruct (Z.ltb_spec (len l) (3 + nc)); [reflexivity|lia]. Qed.
Lemma it_short v l ifeng nieb nc ne locb : content v l -> ifeng < 2 -> 0 <= ne * nieb * (1 + nc) < 2 ^ 32 -> len l < ne * nieb * (1 + nc) ->
  it_make Debug ifeng nieb nc ne locb v = Throw StdException.
Proof.
  intros C Hi B H. pose proof (has_bounds _ _ (proj1 C)). pose proof (proj2 C). pose proof (len_nonneg l). unfold it_make, throw_if. destruct (Z.ltb_spec ifeng 2); [|lia].
  rewrite u32_small, s64_small by lia. match goal with |- context [?a <? ?b] => destruct (Z.ltb_spec a b) end; [reflexivity|lia].
Qed.
Lemma ad_cut v words kept n m : cut_of kept words -> len words = n * m -> 0 <= n * m < 2 ^ 32 -> content v kept -> ad_make v n m = Throw StdException.
Proof. intros K L B C. pose proof (cut_of_len _ _ K). apply (ad_short v kept n m C B). lia. Qed.
