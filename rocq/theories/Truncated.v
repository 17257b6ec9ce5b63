(** Truncated data are never accepted: the constructors that view words reject, in Debug, every
    proper prefix of a complete layout; and index checks of the array data. *)
From Coq Require Import ZArith Bool List Lia.
From Coq Require Import ZifyBool ZifyNat.
From Verif Require Import PropLemmasBasic.
Import ListNotations.
Open Scope Z_scope.

Lemma cut_prefix {A} (l r a b : list A) (x : A) : l ++ r = a ++ x :: b ->
  (exists b', l = a ++ x :: b' /\ b' ++ r = b) \/ len l <= len a.
Proof.
  revert a. induction l as [|y l IH]; intros a E.
  - right. rewrite len_nil. apply len_nonneg.
  - destruct a as [|z a]; cbn [app] in E; injection E as <- E.
    + left. exists l. auto.
    + destruct (IH a E) as [(b' & -> & F)|H]; [left; exists b'; auto|right; rewrite !len_cons; lia].
Qed.

Lemma cut_len {A} (l r full : list A) : l ++ r = full -> r <> [] -> len l < len full.
Proof. intros <- H. destruct r as [|x r]; [congruence|]. rewrite len_app, len_cons. pose proof (len_nonneg r). lia. Qed.

Lemma xss_beyond v l i : content v l -> len l < i < 2 ^ 64 -> xss Debug v i = Throw OutOfRange.
Proof. intros C H. pose proof (len_nonneg l). apply (xss_oob v l i C); lia. Qed.

Lemma verify_short v l n : content v l -> len l < n -> verify_at_least v n = Throw StdException.
Proof.
  intros [Hv E] H. pose proof (has_bounds _ _ Hv) as B. pose proof (len_nonneg l). unfold verify_at_least, throw_if.
  rewrite s64_small by lia. destruct (Z.ltb_spec (vend v - vbeg v) n); [reflexivity|lia].
Qed.

Definition rejected {A} (o : outcome A) : Prop := o = Throw StdException \/ o = Throw OutOfRange.

Lemma ad_short v l n m : content v l -> 0 <= n * m < 2 ^ 32 -> len l < n * m -> ad_make v n m = Throw StdException.
Proof.
  intros C B H. unfold ad_make, ad_verifySize. rewrite u32_small by lia.
  pose proof (verify_short v l (n * m) C H) as S. unfold verify_at_least in S. rewrite S. reflexivity.
Qed.

Lemma ad_oob v n m i j : ~ (1 <= u64 i <= m) ->
  let a := ArrayData v n m in
  ad_darray Debug a i = Throw OutOfRange /\ ad_iarray Debug a i = Throw OutOfRange
  /\ ad_dvalue Debug a i j = Throw OutOfRange /\ ad_ivalue Debug a i j = Throw OutOfRange.
Proof.
  intros H a. assert (C : ad_verifyIndex a i = Throw OutOfRange).
  { unfold ad_verifyIndex, verifyIndex, throw_if. cbn [ad_m a]. destruct ((u64 i <? 1) || (m <? u64 i)) eqn:E; [reflexivity|lia]. }
  unfold ad_darray, ad_iarray, ad_dvalue, ad_ivalue, ad_verifyIndex2, check. cbn [debug]. rewrite C. auto.
Qed.
Lemma ad_oob2 v n m i j : 1 <= u64 i <= m -> ~ (1 <= u64 j <= n) ->
  let a := ArrayData v n m in
  ad_dvalue Debug a i j = Throw OutOfRange /\ ad_ivalue Debug a i j = Throw OutOfRange.
Proof.
  intros Hi H a. assert (C : ad_verifyIndex2 a i j = Throw OutOfRange).
  { unfold ad_verifyIndex2, ad_verifyIndex, verifyIndex, throw_if. cbn [ad_n ad_m a].
    destruct ((u64 i <? 1) || (m <? u64 i)) eqn:E; [lia|]. cbn [bind].
    destruct ((u64 j <? 1) || (n <? u64 j)) eqn:E'; [reflexivity|lia]. }
  unfold ad_dvalue, ad_ivalue, check. cbn [debug]. rewrite C. auto.
Qed.

Lemma cd_short v ne nc l : content v (dbl ne :: l) -> 0 <= ne < 2 ^ 31 -> 0 <= nc < 2 ^ 31 -> len l < ne * nc ->
  cd_make v nc = Throw StdException.
Proof.
  intros C Hn Hc H. pose proof C as [Hv E]. pose proof (has_bounds _ _ Hv) as B. rewrite len_cons in *. pose proof (len_nonneg l).
  unfold cd_make, vempty. destruct (Z.eqb_spec (vbeg v) (vend v)); [lia|].
  pose proof (xss_at Release v [] (dbl ne) l 1 Hv eq_refl) as X. unfold xss in X. cbn [debug bind] in X.
  change (s64 (u64 1 - 1)) with 0 in X. rewrite Z.add_0_r in X. rewrite X. cbn [bind].
  rewrite trunc_to_size_dbl by lia. cbn [bind]. unfold cd_verifySize, throw_if.
  assert (P : ne * nc < 2 ^ 62) by (change (2 ^ 62) with (2 ^ 31 * 2 ^ 31); apply Z.mul_lt_mono_nonneg; lia).
  rewrite (u64_small (1 + ne * nc)) by lia. rewrite u64_small by lia.
  destruct (Z.eqb_spec (vend v - vbeg v) 0); [lia|]. cbn [negb andb].
  destruct (Z.ltb_spec (vend v - vbeg v) (1 + ne * nc)); [reflexivity|lia].
Qed.

Lemma cd_empty bm v nc : content v [] -> exists c, cd_make v nc = Ok c /\ cd_N bm c = Ok 0.
Proof.
  intros [Hv E]. rewrite len_nil in E. unfold cd_make, vempty. rewrite E, Z.add_0_r, Z.eqb_refl. cbn [bind].
  unfold cd_verifySize, throw_if. rewrite E. replace (vbeg v + 0 - vbeg v) with 0 by lia. cbn. eexists. split; [reflexivity|].
  unfold cd_N, vempty. cbn [cd_v]. rewrite E, Z.add_0_r, Z.eqb_refl. reflexivity.
Qed.

Lemma cd_truncated v cols l r full : cd_generateXSS cols = Ok full -> len full < max_words -> len cols < 2 ^ 31 ->
  l ++ r = full -> r <> [] -> l <> [] ->
  content v l -> cd_make v (len cols) = Throw StdException.
Proof.
  intros G B Bc E Hr Hl C. destruct cols as [|c0 cols]; [discriminate|]. apply cd_generateXSS_inv in G.
  destruct G as (ne & _ & A & ->). assert (ne = len c0) as -> by (inversion A; auto).
  destruct l as [|x l]; [congruence|]. cbn [app] in E. injection E as -> E. pose proof (len_nonneg c0). unfold max_words, cd_layout in *.
  change (l ++ r = concat (c0 :: cols)) in E. pose proof (cut_len _ _ _ E Hr) as L. rewrite (len_concat (len c0)) in L by exact A.
  assert (Bn : len c0 < 2 ^ 31).
  { rewrite len_cons in B. cbn [concat] in B. rewrite len_app in B. pose proof (len_nonneg (concat cols)). lia. }
  apply (cd_short v (len c0) (len (c0 :: cols)) l C); [lia|pose proof (len_nonneg (c0 :: cols)); lia|lia].
Qed.

Lemma xs_truncated v index values l r : len values + 2 < max_words ->
  l ++ r = xs_generateXSS index values -> r <> [] -> content v l -> rejected (xs_make Debug v).
Proof.
  intros B E Hr C. unfold xs_generateXSS in E. pose proof (cut_len _ _ _ E Hr) as L. unfold max_words in B.
  pose proof (len_nonneg values). unfold rejected, xs_make, xs_numberValues.
  destruct (cut_prefix l r [dbl index] values (dbl (len values)) E) as [(b & -> & F)|S].
  - rewrite (ixss_size_at Debug v [dbl index] (len values) b 2 (proj1 C) eq_refl) by lia. cbn [bind]. rewrite u32_small by lia.
    left. rewrite (verify_short v _ _ C); [reflexivity|]. rewrite !len_cons in L. lia.
  - right. change (len [dbl index]) with 1 in S. unfold ixss_size, ixss. rewrite (xss_beyond v l 2 C) by lia. reflexivity.
Qed.

Lemma tp_truncated v interp x p c full l r : tp_generateXSS interp x p c [] = Ok full -> len full < max_words ->
  l ++ r = full -> r <> [] -> content v l -> rejected (tp_make Debug v).
Proof.
  intros G B E Hr C. apply tp_generateXSS_inv in G as [A ->]. unfold tp_layout, cd_layout in *. pose proof (cut_len _ _ _ E Hr) as L.
  rewrite !len_cons, (len_concat (len x)) in B, L by exact A. change (len [x; p; c]) with 3 in *. unfold max_words in B.
  pose proof (len_nonneg x). unfold rejected, tp_make, tp_numberValues.
  destruct (cut_prefix l r [dbl interp] _ (dbl (len x)) E) as [(b & -> & F)|S].
  - rewrite (ixss_size_at Debug v [dbl interp] (len x) b 2 (proj1 C) eq_refl) by lia. cbn [bind]. rewrite u32_small by lia.
    left. rewrite (verify_short v _ _ C); [reflexivity|lia].
  - right. change (len [dbl interp]) with 1 in S. unfold ixss_size, ixss. rewrite (xss_beyond v l 2 C) by lia. reflexivity.
Qed.

Lemma td_truncated v nbt int x y full l r : td_generateXSS nbt int x y = Ok full -> len full < max_words ->
  l ++ r = full -> r <> [] -> content v l -> rejected (td_make Debug v).
Proof.
  intros G B E Hr C. apply td_generateXSS_inv in G as (E1 & E2 & ->). pose proof (cut_len _ _ _ E Hr) as L.
  rewrite len_td_layout in B, L by assumption. unfold max_words in B. pose proof (len_nonneg nbt). pose proof (len_nonneg x).
  unfold td_layout in E.
  unfold rejected, td_make. destruct l as [|w l].
  { right. rewrite (xss_beyond v [] 1 C) by (rewrite len_nil; lia). reflexivity. }
  cbn [app] in E. injection E as -> E.
  rewrite (xss_at Debug v [] (dbl (len nbt)) l 1 (proj1 C) eq_refl). cbn [bind]. rewrite round_to_size_dbl by lia. cbn [bind].
  destruct (cut_prefix l r (map dbl nbt ++ map dbl int) (x ++ y) (dbl (len x))) as [(b & -> & F)|S].
  { rewrite E. las. }
  - rewrite (xss_at Debug v (dbl (len nbt) :: map dbl nbt ++ map dbl int) (dbl (len x)) b).
    + cbn [bind]. rewrite round_to_size_dbl by lia. cbn [bind]. rewrite u32_small by lia.
      left. rewrite (verify_short v _ _ C); [reflexivity|lia].
    + exact (proj1 C).
    + rewrite len_cons, len_app, !len_map. lia.
  - right. rewrite len_app, !len_map in S. rewrite (xss_beyond v _ _ C); [reflexivity|]. rewrite len_cons. lia.
Qed.
