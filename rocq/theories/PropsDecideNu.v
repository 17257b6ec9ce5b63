(** C50, continued: a NU block with prompt and total fission multiplicities. *)
From Coq Require Import ZArith Bool List Lia.
From Coq Require Import ZifyBool ZifyNat.
From Verif Require Import PropLemmasBasic Truncated NuBlock AtomicBlocks ElectronBlocks Accepted Decide PropsDecide DecideMore PropsDecideMore.
Import ListNotations.
Open Scope Z_scope.

(** One multiplicity in [u]: [kind] is its first word; a polynomial (1) has [n] coefficients, a table (2) [nr] regions and [ne] values. *)
Definition nu_words_state (u : view) (kind n nr ne : Z) : Prop :=
  states u 1 kind /\ 1 <= kind < 2 ^ 31 /\ 0 <= n < 2 ^ 30 /\ 0 <= nr < 2 ^ 29 /\ 0 <= ne < 2 ^ 29
  /\ (kind = 1 -> states u 2 n) /\ (kind = 2 -> states u 2 nr /\ states u (3 + 2 * nr) ne).
Definition nu_fits (u : view) (kind n nr ne : Z) : Prop :=
  (kind = 1 /\ 2 + n <= size u) \/ (kind = 2 /\ 3 + 2 * nr + 2 * ne <= size u).
Definition nu_is bm (kind n nr ne : Z) (x : nu_data) : Prop :=
  match x with
  | NuPoly p => kind = 1 /\ pf_NC bm p = Ok n /\ returns (pf_C bm p) n
  | NuTab t => kind = 2 /\ table_shows bm (pt_tab t) nr ne
  end.

Lemma whole_negative w z : whole_number w z -> z < 0 -> SFltb w (dbl 0) = true.
Proof.
  intros [R _] Hz. destruct w as [s|s| |s m e]; try discriminate R; [injection R as <-; lia|]. cbn [sf_round] in R. destruct s; [reflexivity|]. exfalso. injection R as R.
  assert (0 <= round_pos m e); [|lia]. unfold round_pos. destruct (Z.leb_spec 0 e) as [L|L].
  - pose proof (Z.pow_nonneg 2 e ltac:(lia)). apply Z.mul_nonneg_nonneg; lia.
  - apply Z.div_pos; [pose proof (Z.pow_nonneg 2 (- e - 1) ltac:(lia)); lia|apply Z.pow_pos_nonneg; lia].
Qed.
Lemma nu_make_data bm u kind : inside u -> 1 <= size u -> states u 1 kind -> 1 <= kind < 2 ^ 31 -> nu_make bm u = (p <- nu_generateData bm u ;; Ok (Nu u p None)).
Proof.
  intros I L S K. destruct (states_holds u 1 kind I S ltac:(lia)) as (w & E & Hw). replace (vbeg u + 1 - 1) with (vbeg u) in E by lia.
  unfold nu_make, nu_generateBlocks. rewrite (inside_vlen u I). fold (size u). destruct (Z.ltb_spec 0 (size u)); [|lia].
  rewrite xss_word by (assumption || lia). replace (vbeg u + 1 - 1) with (vbeg u) by lia. rewrite E. cbn [bind]. rewrite (whole_positive w kind Hw ltac:(lia)). reflexivity.
Qed.
Lemma nu_data_decides u kind n nr ne : inside u -> 1 <= size u -> nu_words_state u kind n nr ne ->
  decides (nu_fits u kind n nr ne) (fun bm => nu_generateData bm u) (fun bm x => nu_is bm kind n nr ne x).
Proof.
  intros I L (S & K & Hn & Hr & He & S1 & S2). destruct (C50_fission_multiplicity u kind n nr ne I L S K Hn Hr He) as (A1 & A2 & A3).
  assert (M := fun bm => nu_make_data bm u kind I L S K).
  assert (T : forall e, nu_make Debug u = Throw e -> exists e, nu_generateData Debug u = Throw e).
  { intros e H. rewrite M in H. destruct (nu_generateData Debug u); cbn [bind] in H; try discriminate. eexists. reflexivity. }
  split.
  - intros [[-> Q] | [-> Q]] bm.
    + destruct (A1 eq_refl (S1 eq_refl)) as [B _]. destruct (B Q bm) as (o & E & _ & p & Eo & H). rewrite M in E. destruct (nu_generateData bm u) as [x| |]; cbn [bind] in E; try discriminate.
      apply Ok_inj in E. subst o. cbn [nu_prompt] in Eo. subst x. eexists. split; [reflexivity|]. split; [reflexivity|exact H].
    + destruct (S2 eq_refl) as [Y1 Y2]. destruct (A2 eq_refl Y1 Y2) as [B _]. destruct (B Q bm) as (o & E & _ & p & Eo & H). rewrite M in E. destruct (nu_generateData bm u) as [x| |]; cbn [bind] in E; try discriminate.
      apply Ok_inj in E. subst o. cbn [nu_prompt] in Eo. subst x. eexists. split; [reflexivity|]. split; [reflexivity|exact H].
  - intros N. unfold nu_fits in N. destruct (Z.eq_dec kind 1) as [K1|K1]; [|destruct (Z.eq_dec kind 2) as [K2|K2]].
    + destruct (A1 K1 (S1 K1)) as [_ B]. destruct B as [e E]; [lia|]. exact (T e E).
    + destruct (S2 K2) as [Y1 Y2]. destruct (A2 K2 Y1 Y2) as [_ B]. destruct B as [e E]; [lia|]. exact (T e E).
    + destruct A3 as [e E]; [lia|]. exact (T e E).
Qed.

(** A negative first word [-k] announces [k] words with the prompt multiplicity; the total multiplicity follows. *)
Theorem C50_both_fission_multiplicities v k kind n nr ne kind' n' nr' ne' : inside v -> 1 <= k -> 1 + k < size v -> states v 1 (- k) ->
  let prompt := View (buf v) (vbeg v + 1) (vbeg v + 1 + k) in
  let total := View (buf v) (vbeg v + 1 + k) (vend v) in
  nu_words_state prompt kind n nr ne -> nu_words_state total kind' n' nr' ne' ->
  decides (nu_fits prompt kind n nr ne /\ nu_fits total kind' n' nr' ne') (fun bm => nu_make bm v)
    (fun bm o => nu_is bm kind n nr ne (nu_prompt o) /\ exists t, nu_total o = Some t /\ nu_is bm kind' n' nr' ne' t).
Proof.
  intros I Hk Hs S prompt total W1 W2. pose proof (size_bound v I) as SB. pose proof I as [(F1 & F2 & F3) F4]. unfold max_words in F3. assert (Sz := eq_refl (size v)). unfold size in Sz at 1.
  assert (I1 : inside prompt) by (apply (Decide.sub_inside v (vbeg v + 1) (vbeg v + 1 + k) I); lia).
  assert (I2 : inside total) by (apply (Decide.sub_inside v (vbeg v + 1 + k) (vend v) I); lia).
  assert (L1 : 1 <= size prompt) by (unfold size; cbn [vbeg vend prompt]; lia).
  assert (L2 : 1 <= size total) by (unfold size; cbn [vbeg vend total]; lia).
  destruct (nu_data_decides prompt kind n nr ne I1 L1 W1) as [A1 A2]. destruct (nu_data_decides total kind' n' nr' ne' I2 L2 W2) as [B1 B2].
  destruct (states_holds v 1 (- k) I S ltac:(lia)) as (w & E & Hw). replace (vbeg v + 1 - 1) with (vbeg v) in E by lia.
  assert (M : forall bm, nu_make bm v = (p <- nu_generateData bm prompt ;; t <- nu_generateData bm total ;; Ok (Nu v p (Some t)))).
  { intros bm. unfold nu_make, nu_generateBlocks. rewrite (inside_vlen v I). fold (size v). destruct (Z.ltb_spec 0 (size v)); [|lia].
    rewrite xss_word by (assumption || lia). replace (vbeg v + 1 - 1) with (vbeg v) by lia. rewrite E. cbn [bind]. rewrite (whole_negative w (- k) Hw ltac:(lia)).
    unfold abs_round_to_u32. rewrite (proj1 Hw). destruct (Z.ltb_spec (Z.abs (- k)) (2 ^ 32)) as [_|Y]; [|lia]. cbn [bind]. rewrite u32_small by lia.
    replace (vbeg v + (Z.abs (- k) + 1)) with (vbeg v + 1 + k) by lia. reflexivity. }
  split.
  - intros (Q1 & Q2) bm. rewrite M. destruct (A1 Q1 bm) as (p & -> & P). cbn [bind]. destruct (B1 Q2 bm) as (t & -> & T). cbn [bind]. eexists. split; [reflexivity|]. split; [exact P|]. exists t. split; [reflexivity|exact T].
  - intros N. rewrite M. destruct (nu_generateData Debug prompt) as [p|x|] eqn:Ep; cbn [bind]; [|eexists; reflexivity|].
    + destruct B2 as (x & ->); [|eexists; reflexivity]. intros Q2. destruct A2 as (x & Y); [|congruence]. intros Q1. apply N. split; assumption.
    + exfalso. destruct A2 as (x & Y); [|congruence]. intros Q1. destruct (A1 Q1 Debug) as (p & Y & _). congruence.
Qed.
Print Assumptions C50_both_fission_multiplicities.
(** The number of words of the prompt multiplicity is not checked: here it is 9 and there is one word. *)
Theorem C50_prompt_words_refuted : let v := own (map dbl [-9; 1]) in inside v /\ nu_make Debug v = UB.
Proof. cbv zeta. split; [apply own_inside; reflexivity|vm_compute; reflexivity]. Qed.
Print Assumptions C50_prompt_words_refuted.

(** a polynomial with one coefficient and a table with two values *)
Example both_met : let v := own (map dbl [-3; 1; 1; 7; 2; 0; 2; 10; 20; 30; 40]) in
  let prompt := View (buf v) 1 4 in let total := View (buf v) 4 11 in
  inside v /\ states v 1 (-3) /\ nu_words_state prompt 1 1 0 0 /\ nu_words_state total 2 0 0 2 /\ nu_fits prompt 1 1 0 0 /\ nu_fits total 2 0 0 2
  /\ (forall bm, exists o, nu_make bm v = Ok o) /\ exists x, nu_make Debug (own (map dbl [-3; 1; 1; 7; 2; 0; 2; 10; 20; 30])) = Throw x.
Proof.
  cbv zeta. split; [apply own_inside; reflexivity|]. split; [stated|].
  split. { split; [stated|]. do 4 (split; [lia|]). split; [intros _; stated|lia]. }
  split. { split; [stated|]. do 4 (split; [lia|]). split; [lia|intros _; split; stated]. }
  split; [left; split; [reflexivity|vm_compute; discriminate]|]. split; [right; split; [reflexivity|vm_compute; discriminate]|].
  split; [intros [|]; eexists; vm_compute; reflexivity|]. eexists. vm_compute. reflexivity.
Qed.
