(** C50: which ranges of words a constructor accepts.  [v] is any range of a vector ([inside]); nothing is assumed about how
    its words were made, except that the words that stand where a count or a locator is expected are whole numbers that fit
    ([states v i z]: if there is an i-th word, it is the number z).  [needs v n make P]: with n words or more the constructor
    makes, in both build modes, an object with P; with fewer it throws in Debug: nothing is read outside the vector. *)
From Coq Require Import ZArith Bool List Lia.
From Verif Require Import PropLemmasBasic Truncated NuBlock AtomicBlocks ElectronBlocks ThermalBlocks Accepted Decide.
Import ListNotations.
Open Scope Z_scope.

(** * One count *)

Theorem C50_cross_sections v n : inside v -> states v 2 n -> 0 <= n < 2 ^ 30 ->
  needs v (2 + n) (fun bm => xs_make bm v) (fun bm o => xs_numberValues bm o = Ok n /\ returns (xs_crossSections bm o) n).
Proof.
  intros I S Hn. assert (R : forall bm, 1 <= 2 <= size v -> holds (buf v) (vbeg v + 2 - 1) n -> xs_numberValues bm v = Ok n).
  { intros bm H W. exact (read_size bm v 2 _ n I H eq_refl W ltac:(lia)). }
  apply (one_count v 2 n (2 + n) xs_numberValues (fun n => u32 (n + 2)) xs_make v); auto; try lia.
  - intros L. apply size_short; [exact I|lia].
  - rewrite u32_small; lia.
  - intros bm L M. assert (N : xs_numberValues bm v = Ok n) by (apply R; [lia|apply states_holds; auto; lia]). split; [exact N|].
    exact (xs_accepts bm v v n (framed_nearby v (proj1 I)) M N ltac:(lia)).
Qed.
Print Assumptions C50_cross_sections.
Theorem C50_photon_cross_sections v n : inside v -> states v 3 n -> 0 <= n < 2 ^ 30 ->
  needs v (3 + n) (fun bm => px_make bm v) (fun bm o => px_numberValues bm o = Ok n /\ returns (px_crossSections bm o) n).
Proof.
  intros I S Hn. assert (R : forall bm, 1 <= 3 <= size v -> holds (buf v) (vbeg v + 3 - 1) n -> px_numberValues bm v = Ok n).
  { intros bm H W. exact (read_trunc bm v 3 _ n I H eq_refl W ltac:(lia)). }
  apply (one_count v 3 n (3 + n) px_numberValues (fun n => u32 (n + 3)) px_make v); auto; try lia.
  - intros L. unfold px_numberValues. rewrite xss_short by (assumption || lia). reflexivity.
  - rewrite u32_small; lia.
  - intros bm L M. assert (N : px_numberValues bm v = Ok n) by (apply R; [lia|apply states_holds; auto; lia]). split; [exact N|].
    exact (px_accepts bm v v n (framed_nearby v (proj1 I)) M N ltac:(lia)).
Qed.
Print Assumptions C50_photon_cross_sections.
Theorem C50_heating v n : inside v -> states v 2 n -> 0 <= n < 2 ^ 30 ->
  needs v (2 + 2 * n) (fun bm => hpd_make bm v)
    (fun bm o => hpd_numberValues bm o = Ok n /\ returns (hpd_totalProduction bm o) n /\ returns (hpd_heating bm o) n).
Proof.
  intros I S Hn. assert (R : forall bm, 1 <= 2 <= size v -> holds (buf v) (vbeg v + 2 - 1) n -> hpd_numberValues bm v = Ok n).
  { intros bm H W. exact (read_trunc bm v 2 _ n I H eq_refl W ltac:(lia)). }
  apply (one_count v 2 n (2 + 2 * n) hpd_numberValues (fun n => u32 (2 * u32 n + 2)) hpd_make v); auto; try lia.
  - intros L. unfold hpd_numberValues. rewrite xss_short by (assumption || lia). reflexivity.
  - rewrite (u32_small n), u32_small; lia.
  - intros bm L M. assert (N : hpd_numberValues bm v = Ok n) by (apply R; [lia|apply states_holds; auto; lia]). split; [exact N|].
    exact (hpd_accepts bm v v n (proj1 I) M N ltac:(lia)).
Qed.
Print Assumptions C50_heating.
Theorem C50_tabulated_distribution v n : inside v -> states v 2 n -> 0 <= n < 2 ^ 30 ->
  needs v (2 + 3 * n) (fun bm => tp_make bm v)
    (fun bm o => tp_numberValues bm o = Ok n /\ returns (tp_values bm o) n /\ returns (tp_pdf bm o) n /\ returns (tp_cdf bm o) n).
Proof.
  intros I S Hn. assert (R : forall bm, 1 <= 2 <= size v -> holds (buf v) (vbeg v + 2 - 1) n -> tp_numberValues bm v = Ok n).
  { intros bm H W. exact (read_size bm v 2 _ n I H eq_refl W ltac:(lia)). }
  apply (one_count v 2 n (2 + 3 * n) tp_numberValues (fun n => u32 (3 * n + 2)) tp_make v); auto; try lia.
  - intros L. apply size_short; [exact I|lia].
  - rewrite u32_small; lia.
  - intros bm L M. assert (N : tp_numberValues bm v = Ok n) by (apply R; [lia|apply states_holds; auto; lia]). split; [exact N|].
    exact (tp_accepts bm v v n (framed_nearby v (proj1 I)) M N ltac:(lia)).
Qed.
Print Assumptions C50_tabulated_distribution.

(** polynomials: another kind of multiplicity in the first word is rejected *)
Theorem C50_polynomial_multiplicity v lnu n : inside v -> states v 1 lnu -> states v 2 n -> 0 <= lnu < 2 ^ 31 -> 0 <= n < 2 ^ 30 ->
  (lnu = 1 -> needs v (2 + n) (fun bm => pf_make bm v) (fun bm o => pf_NC bm o = Ok n /\ returns (pf_C bm o) n))
  /\ (lnu <> 1 -> exists e, pf_make Debug v = Throw e).
Proof.
  intros I S1 S2 Hl Hn. pose proof (size_bound v I) as SB.
  assert (R : forall bm, 2 <= size v -> pf_NC bm v = Ok n).
  { intros bm H. apply (read_size bm v 2 _ n I ltac:(lia) eq_refl (states_holds v 2 n I S2 ltac:(lia)) ltac:(lia)). }
  assert (Q : forall bm, 2 <= size v -> pf_LNU bm v = Ok lnu).
  { intros bm H. unfold pf_LNU. rewrite (read_int bm v 1 _ lnu I ltac:(lia) eq_refl (states_holds v 1 lnu I S1 ltac:(lia)) ltac:(lia)). cbn [bind]. rewrite u32_small by lia. reflexivity. }
  assert (T : size v < 2 -> pf_make Debug v = Throw OutOfRange).
  { intros L. unfold pf_make, pf_NC. rewrite size_short by (assumption || lia). reflexivity. }
  assert (X : size v < 2 + n -> exists e, pf_make Debug v = Throw e).
  { intros L. destruct (Z.leb_spec 2 (size v)) as [L2|L2]; [|rewrite (T L2); eauto].
    unfold pf_make. rewrite (R Debug L2). cbn [bind]. rewrite (u32_small n), u32_small by lia. rewrite verify_short by (assumption || lia). eexists. reflexivity. }
  split.
  - intros ->. split; [|exact X]. intros L bm. exists v. assert (M : pf_make bm v = Ok v).
    { unfold pf_make. rewrite (R bm) by lia. cbn [bind]. rewrite (u32_small n), u32_small by lia. rewrite verify_enough by (assumption || lia). cbn [bind].
      rewrite (Q bm) by lia. reflexivity. }
    split; [exact M|]. split; [apply R; lia|]. exact (pf_accepts bm v v n (proj1 I) M (R bm ltac:(lia)) ltac:(lia)).
  - intros D. destruct (Z.leb_spec (2 + n) (size v)) as [L|L]; [|exact (X L)]. unfold pf_make. rewrite (R Debug) by lia. cbn [bind].
    rewrite (u32_small n), u32_small by lia. rewrite verify_enough by (assumption || lia). cbn [bind]. rewrite (Q Debug) by lia. cbn [bind].
    unfold throw_if. destruct (Z.eqb_spec lnu 1); [contradiction|]. eexists. reflexivity.
Qed.
Print Assumptions C50_polynomial_multiplicity.

(** no words are no reactions; otherwise the first word counts them *)
Theorem C50_photon_yields v n : inside v -> states v 1 n -> 0 <= n < 2 ^ 30 ->
  (size v = 0 -> forall bm, yp_make bm v = Ok v /\ yp_NYP bm v = Ok 0)
  /\ (1 <= size v -> needs v (1 + n) (fun bm => yp_make bm v) (fun bm o => yp_NYP bm o = Ok n /\ returns (yp_MTs bm o) n)).
Proof.
  intros I S Hn. pose proof (size_bound v I) as SB. split.
  - intros E bm. unfold size in E. assert (N : yp_NYP bm v = Ok 0).
    { unfold yp_NYP, vempty. destruct (Z.eqb_spec (vbeg v) (vend v)); [reflexivity|lia]. }
    unfold yp_make. rewrite N. auto.
  - intros P. assert (N : forall bm, yp_NYP bm v = Ok n).
    { intros bm. unfold yp_NYP, vempty. destruct (Z.eqb_spec (vbeg v) (vend v)); [unfold size in P; lia|].
      rewrite (read_int bm v 1 _ n I ltac:(lia) eq_refl (states_holds v 1 n I S ltac:(lia)) ltac:(lia)). cbn [bind]. rewrite u32_small by lia. reflexivity. }
    split.
    + intros L bm. exists v. assert (M : yp_make bm v = Ok v).
      { unfold yp_make. rewrite (N bm). cbn [bind]. destruct (n =? 0); [reflexivity|]. rewrite u32_small by lia. rewrite verify_enough by (assumption || lia). reflexivity. }
      split; [exact M|]. split; [exact (N bm)|]. unfold size in P. exact (yp_accepts bm v v n I ltac:(lia) M (N bm) ltac:(lia)).
    + intros L. unfold yp_make. rewrite (N Debug). cbn [bind]. destruct (Z.eqb_spec n 0); [lia|]. rewrite u32_small by lia. rewrite verify_short by (assumption || lia). eexists. reflexivity.
Qed.
Print Assumptions C50_photon_yields.

(** columns behind a count *)
Theorem C50_columns v nc n : inside v -> 0 <= nc -> states v 1 n -> 0 <= n < 2 ^ 31 -> 1 + n * nc < 2 ^ 62 ->
  (size v = 0 -> exists o, cd_make v nc = Ok o /\ forall bm, cd_N bm o = Ok 0)
  /\ (1 <= size v -> needs v (1 + n * nc) (fun _ => cd_make v nc) (fun bm o => cd_N bm o = Ok n /\ forall i, 1 <= i <= nc -> returns (cd_column bm o i) n)).
Proof.
  intros I Hc S Hn B. split; [|intros L; apply cd_decides; assumption]. unfold size. intros E. assert (E' : vbeg v = vend v) by lia.
  unfold cd_make, cd_verifySize, vempty. rewrite (proj2 (Z.eqb_eq _ _) E'). cbn [bind]. exists (ColumnData v nc). split.
  - unfold throw_if. rewrite E', Z.sub_diag. cbn. reflexivity.
  - intros bm. unfold cd_N, vempty. cbn [cd_v]. rewrite (proj2 (Z.eqb_eq _ _) E'). reflexivity.
Qed.
Print Assumptions C50_columns.

(** * Sizes that are given to the constructor *)

Theorem C50_array_data v n m : inside v -> 0 <= n -> 0 <= m < 2 ^ 32 -> n * m < 2 ^ 32 ->
  needs v (n * m) (fun _ => ad_make v n m)
    (fun bm o => (forall i, 1 <= i <= m -> returns (ad_darray bm o i) n) /\ forall i j, 1 <= i <= m -> 1 <= j <= n -> exists x, ad_dvalue bm o i j = Ok x).
Proof.
  intros I Hn Hm B. assert (0 <= n * m) by nia.
  assert (E : ad_verifySize v n m = throw_if (size v <? n * m) StdException).
  { unfold ad_verifySize. rewrite (framed_s64 v (proj1 I)), u32_small by lia. reflexivity. }
  split; intros L.
  - intros bm. assert (M : ad_make v n m = Ok (ArrayData v n m)).
    { unfold ad_make. rewrite E. unfold throw_if. destruct (Z.ltb_spec (size v) (n * m)); [lia|]. reflexivity. }
    exists (ArrayData v n m). split; [exact M|]. exact (proj2 (ad_accepts bm v n m _ (proj1 I) Hn (proj1 Hm) B (proj2 Hm) M)).
  - unfold ad_make. rewrite E. unfold throw_if. destruct (Z.ltb_spec (size v) (n * m)); [|lia]. eexists. reflexivity.
Qed.
Print Assumptions C50_array_data.
Theorem C50_given_sizes v : inside v ->
  (forall n, 0 <= n < 2 ^ 32 -> needs v n (fun _ => nt_make v n) (fun bm o => nt_NTYPE o = n /\ returns (nt_NPs bm o) n))
  /\ (forall n, 0 <= n -> 10 * n < 2 ^ 32 -> needs v (10 * n) (fun _ => ix_make v n)
        (fun bm o => nt_NTYPE o = n /\ forall p i, 1 <= p <= n -> 1 <= i <= 10 -> exists x, xss bm (nt_v o) ((p - 1) * 10 + i) = Ok x))
  /\ (forall n, 0 <= n -> 12 * n < 2 ^ 32 -> needs v (12 * n) (fun _ => iu_make v n)
        (fun bm o => iu_NTYPE o = n /\ forall p i, 1 <= p <= n -> 1 <= i <= 12 -> exists x, xss bm (nt_v o) ((p - 1) * 12 + i) = Ok x))
  /\ (forall e1 e2, needs v 2 (fun _ => SimpleLaws.two_make v e1 e2) (fun bm o => (exists x, two_C1 bm o = Ok x) /\ exists x, two_C2 bm o = Ok x))
  /\ (forall nc, 0 <= nc < 2 ^ 32 -> needs v (1 + nc) (fun _ => dc_make nc v) (fun bm o => (exists e, cos_energy bm o = Ok e) /\ returns (cos_cosines bm o) nc))
  /\ (forall nc, 0 <= nc < 2 ^ 32 -> needs v (3 + nc) (fun _ => dq_make nc v)
        (fun bm o => (exists e, cos_energy bm o = Ok e) /\ (exists p, cos_pdf bm (cos_v o) = Ok p) /\ (exists c, cos_cdf bm (cos_v o) = Ok c) /\ returns (cos_cosines bm o) nc)).
Proof.
  intros I. assert (F := proj1 I). pose proof (inside_vlen v I) as VL. fold (size v) in VL.
  assert (K : forall A n (o : A) (make : outcome A) (P : build -> A -> Prop), make = (_ <- verify_at_least v n ;; Ok o) ->
    (make = Ok o -> forall bm, P bm o) -> needs v n (fun _ => make) P).
  { intros A n o make P -> H. split; intros L.
    - intros bm. exists o. rewrite verify_enough in * by assumption. split; [reflexivity|exact (H eq_refl bm)].
    - rewrite verify_short by assumption. eexists. reflexivity. }
  assert (K' : forall A n (o : A) (make : outcome A) (P : build -> A -> Prop), 0 <= n < 2 ^ 64 -> make = (_ <- throw_if (vlen v <? u64 n) StdException ;; Ok o) ->
    (make = Ok o -> forall bm, P bm o) -> needs v n (fun _ => make) P).
  { intros A n o make P B -> H. rewrite VL, u64_small in * by lia. unfold throw_if in *. split; intros L; destruct (Z.ltb_spec (size v) n); try lia.
    - intros bm. exists o. split; [reflexivity|exact (H eq_refl bm)].
    - eexists. reflexivity. }
  split; [|split; [|split; [|split; [|split]]]].
  - intros n Hn. eapply K; [reflexivity|]. intros M bm. exact (nt_accepts bm v n _ F ltac:(lia) M).
  - intros n Hn B. apply (K _ _ (Ntro v n)); [unfold ix_make; rewrite u32_small by lia; reflexivity|]. intros M bm. exact (ix_accepts bm v n _ F Hn B M).
  - intros n Hn B. apply (K _ _ (Ntro v n)); [unfold iu_make; rewrite u32_small by lia; reflexivity|]. intros M bm. exact (iu_accepts bm v n _ F Hn B M).
  - intros e1 e2. eapply K; [reflexivity|]. intros M bm. exact (two_accepts bm v e1 e2 _ F M).
  - intros nc B. eapply K'; [lia|reflexivity|]. intros M bm. exact (dc_accepts bm nc v _ I B M).
  - intros nc B. eapply K'; [lia|reflexivity|]. intros M bm. exact (dq_accepts bm nc v _ I B M).
Qed.
Print Assumptions C50_given_sizes.

(** the number of values follows from the number of words, which must be a multiple *)
Theorem C50_sizes_from_words v : inside v ->
  (if size v mod 4 =? 0 then exists o, tr_make v = Ok o /\ 4 * tr_NT o = size v else exists e, tr_make v = Throw e)
  /\ (if (size v =? 21) || (size v mod 2 =? 0) then exists o, ji_make v = Ok o /\ forall bm, returns (ji_momentum bm o) (ji_NM o) /\ returns (ji_values bm o) (ji_NM o)
      else exists e, ji_make v = Throw e)
  /\ (if (size v =? 110) || (size v mod 3 =? 0) then exists o, jc_make v = Ok o /\ forall bm, returns (ji_momentum bm o) (ji_NM o) /\ returns (jc_integrated bm o) (ji_NM o) /\ returns (jc_factors bm o) (ji_NM o)
      else exists e, jc_make v = Throw e).
Proof.
  intros I. pose proof (size_bound v I) as SB. pose proof (framed_s64 v (proj1 I)) as SZ. fold (size v) in SZ.
  assert (AD : forall n m, 0 <= n * m <= size v -> ad_make v n m = Ok (ArrayData v n m)).
  { intros n m H. unfold ad_make, ad_verifySize. fold (size v). rewrite SZ, u32_small by lia. unfold throw_if. destruct (Z.ltb_spec (size v) (n * m)); [lia|reflexivity]. }
  assert (RM : forall k, 0 < k -> Z.rem (size v) k = size v mod k) by (intros k Hk; apply Z.rem_mod_nonneg; lia).
  assert (QT : forall k, 0 < k -> Z.quot (size v) k = size v / k) by (intros k Hk; apply Z.quot_div_nonneg; lia).
  split; [|split].
  - unfold tr_make. fold (size v). rewrite SZ, RM, QT by lia. destruct (Z.eqb_spec (size v mod 4) 0) as [E|E].
    + cbn [negb throw_if bind]. assert (0 <= size v / 4 < 2 ^ 31 /\ 4 * (size v / 4) = size v) as [Q1 Q2] by (clear -E SB; Z.div_mod_to_equations; lia).
      rewrite u32_small by lia. rewrite AD by lia. eexists. split; [reflexivity|]. exact Q2.
    + eexists. reflexivity.
  - destruct ((size v =? 21) || (size v mod 2 =? 0)) eqn:E.
    + assert (M : exists o, ji_make v = Ok o).
      { unfold ji_make. fold (size v). rewrite SZ, RM, QT by lia. destruct (Z.eqb_spec 21 (size v)) as [X|X].
        - cbn [bind]. rewrite <- X. cbn [Z.eqb Pos.eqb]. rewrite AD by lia. eexists. reflexivity.
        - destruct (Z.eqb_spec 0 (size v mod 2)) as [Y|Y]; [|lia]. cbn [negb throw_if bind].
          assert (0 <= size v / 2 < 2 ^ 31 /\ size v / 2 * 2 = size v) as [Q1 Q2] by (clear -Y SB; Z.div_mod_to_equations; lia).
          destruct (Z.eqb_spec (size v) 21); [lia|]. rewrite (u32_small (size v / 2)) by lia. rewrite AD by lia. eexists. reflexivity. }
      destruct M as [o M]. exists o. split; [exact M|]. intros bm. exact (ji_accepts bm v o I M).
    + unfold ji_make. fold (size v). rewrite SZ, RM, QT by lia. destruct (Z.eqb_spec 21 (size v)); [lia|]. destruct (Z.eqb_spec 0 (size v mod 2)); [lia|]. eexists. reflexivity.
  - destruct ((size v =? 110) || (size v mod 3 =? 0)) eqn:E.
    + assert (M : exists o, jc_make v = Ok o).
      { unfold jc_make. fold (size v). rewrite SZ, RM, QT by lia. destruct (Z.eqb_spec 110 (size v)) as [X|X].
        - cbn [bind]. rewrite <- X. cbn [Z.eqb Pos.eqb]. rewrite AD by lia. eexists. reflexivity.
        - destruct (Z.eqb_spec 0 (size v mod 3)) as [Y|Y]; [|lia]. cbn [negb throw_if bind].
          assert (0 <= size v / 3 < 2 ^ 31 /\ size v / 3 * 3 = size v) as [Q1 Q2] by (clear -Y SB; Z.div_mod_to_equations; lia).
          destruct (Z.eqb_spec (size v) 110); [lia|]. rewrite (u32_small (size v / 3)) by lia. rewrite AD by lia. eexists. reflexivity. }
      destruct M as [o M]. exists o. split; [exact M|]. intros bm. exact (jc_accepts bm v o I M).
    + unfold jc_make. fold (size v). rewrite SZ, RM, QT by lia. destruct (Z.eqb_spec 110 (size v)); [lia|]. destruct (Z.eqb_spec 0 (size v mod 3)); [lia|]. eexists. reflexivity.
Qed.
Print Assumptions C50_sizes_from_words.

(** * Tables and spectra *)

Theorem C50_tables v nr ne : inside v -> 0 <= nr < 2 ^ 29 -> 0 <= ne < 2 ^ 29 -> states v 1 nr -> states v (2 + 2 * nr) ne ->
  needs v (2 + 2 * nr + 2 * ne) (fun bm => td_make bm v)
    (fun bm t => td_NB bm t = Ok nr /\ td_N bm t = Ok ne /\ returns (td_NBT bm t) nr /\ returns (td_INT bm t) nr /\ returns (td_x bm t) ne /\ returns (td_y bm t) ne).
Proof. exact (td_decides v nr ne). Qed.
Print Assumptions C50_tables.
(** behind k words that are there: fluxes, yields, tabulated multiplicities, precursor groups *)
Theorem C50_tables_behind_words v k nr ne : inside v -> 0 <= k <= size v -> 0 <= nr < 2 ^ 29 -> 0 <= ne < 2 ^ 29 -> states v (k + 1) nr -> states v (k + 2 + 2 * nr) ne ->
  needs v (k + 2 + 2 * nr + 2 * ne) (fun bm => pt_generateBlocks bm k v) (fun bm o => pt_v o = v /\ table_shows bm (pt_tab o) nr ne).
Proof. exact (pt_decides v k nr ne). Qed.
Print Assumptions C50_tables_behind_words.
Theorem C50_evaporation_spectra v nr ne : inside v -> 0 <= nr < 2 ^ 29 -> 0 <= ne < 2 ^ 29 -> states v 1 nr -> states v (2 + 2 * nr) ne ->
  needs v (3 + 2 * nr + 2 * ne) (fun bm => ev_make bm v) (fun bm o => table_shows bm (ev_tab o) nr ne /\ exists u, ev_U o = Ok u).
Proof. exact (ev_decides v nr ne). Qed.
Print Assumptions C50_evaporation_spectra.
Theorem C50_general_evaporation_spectra v nr ne nb : inside v -> 0 <= nr < 2 ^ 29 -> 0 <= ne < 2 ^ 29 -> 0 <= nb < 2 ^ 29 ->
  states v 1 nr -> states v (2 + 2 * nr) ne -> states v (3 + 2 * nr + 2 * ne) nb ->
  needs v (3 + 2 * nr + 2 * ne + nb) (fun bm => ge_make bm v)
    (fun bm o => table_shows bm (ge_tab o) nr ne /\ ge_NET bm o = Ok nb /\ returns (ge_bins bm o) nb).
Proof. exact (ge_decides v nr ne nb). Qed.
Print Assumptions C50_general_evaporation_spectra.
Theorem C50_watt_spectra v na n nb m : inside v -> 0 <= na < 2 ^ 29 -> 0 <= n < 2 ^ 29 -> 0 <= nb < 2 ^ 29 -> 0 <= m < 2 ^ 29 ->
  states v 1 na -> states v (2 + 2 * na) n -> states v (3 + 2 * na + 2 * n) nb -> states v (4 + 2 * na + 2 * n + 2 * nb) m ->
  needs v (5 + 2 * na + 2 * n + 2 * nb + 2 * m) (fun bm => wa_make bm v)
    (fun bm o => table_shows bm (wa_a o) na n /\ table_shows bm (wa_b o) nb m /\ exists u, wa_U o = Ok u).
Proof. exact (wa_decides v na n nb m). Qed.
Print Assumptions C50_watt_spectra.

(** law 1: for each of ne incident energies nb energies that bound the bins *)
Theorem C50_equiprobable_bins v nr ne nb : inside v -> 0 <= nr < 2 ^ 29 -> 0 <= ne < 2 ^ 29 -> 0 <= nb < 2 ^ 29 -> 3 + 2 * nr + ne + ne * nb < 2 ^ 32 ->
  states v 1 nr -> states v (2 + 2 * nr) ne -> states v (3 + 2 * nr + ne) nb ->
  needs v (3 + 2 * nr + ne + ne * nb) (fun bm => SimpleLaws.eq_make bm v)
    (fun bm o => eq_NB bm o = Ok nr /\ eq_NE bm o = Ok ne /\ eq_NET bm o = Ok nb
       /\ returns (eq_NBT bm o) nr /\ returns (eq_INT bm o) nr /\ returns (eq_incidentEnergies bm o) ne
       /\ forall i, 1 <= i <= ne -> (exists e, eq_incidentEnergy bm o i = Ok e)
            /\ exists b, eq_distribution bm o i = Ok b /\ eqb_numberBins b + 1 = nb /\ returns (eqb_energies bm b) nb).
Proof. exact (eq_decides v nr ne nb). Qed.
Print Assumptions C50_equiprobable_bins.

(** * Blocks with locators and distributions for each incident energy *)

(** SIG: locators that do not decrease; [cnt i] is the number of cross sections stated in the i-th entry *)
Theorem C50_block_SIG v off n (loc cnt : Z -> Z) : inside v -> 0 <= off <= size v -> 0 <= n < 2 ^ 31 ->
  (forall i, 1 <= i <= n -> states v i (loc i) /\ 1 <= loc i < 2 ^ 31) -> (forall i, 1 <= i < n -> loc i <= loc (i + 1)) ->
  (forall i, 1 <= i <= n -> states (entry v off n loc i) 2 (cnt i) /\ 0 <= cnt i < 2 ^ 30) ->
  let fits := block_fits v off n loc (fun i => 2 + cnt i) in
  (fits -> forall bm, exists o, bl_make bm (sig_generateData bm) v (vbeg v + off) n true = Ok o /\ bl_n o = n
     /\ forall i, 1 <= i <= n -> exists d, bl_datum bm o i = Ok d /\ xs_numberValues bm d = Ok (cnt i) /\ returns (xs_crossSections bm d) (cnt i))
  /\ (~ fits -> exists e, bl_make Debug (sig_generateData Debug) v (vbeg v + off) n true = Throw e).
Proof.
  intros I Ho Hn Hl Hu Hc fits.
  apply (bl_decides sig_generateData v off n loc (fun i => 2 + cnt i) (fun bm i d => xs_numberValues bm d = Ok (cnt i) /\ returns (xs_crossSections bm d) (cnt i))); auto.
  intros i Hi In. destruct (Hc i Hi) as [S R]. exact (C50_cross_sections _ (cnt i) In S R).
Qed.
Print Assumptions C50_block_SIG.
(** the dosimetry SIG block: a table per reaction *)
Theorem C50_block_SIGD v off n (loc nr ne : Z -> Z) : inside v -> 0 <= off <= size v -> 0 <= n < 2 ^ 31 ->
  (forall i, 1 <= i <= n -> states v i (loc i) /\ 1 <= loc i < 2 ^ 31) -> (forall i, 1 <= i < n -> loc i <= loc (i + 1)) ->
  (forall i, 1 <= i <= n -> states (entry v off n loc i) 1 (nr i) /\ 0 <= nr i < 2 ^ 29 /\ states (entry v off n loc i) (2 + 2 * nr i) (ne i) /\ 0 <= ne i < 2 ^ 29) ->
  let fits := block_fits v off n loc (fun i => 2 + 2 * nr i + 2 * ne i) in
  (fits -> forall bm, exists o, bl_make bm (sigd_gd bm) v (vbeg v + off) n true = Ok o /\ bl_n o = n
     /\ forall i, 1 <= i <= n -> exists d, bl_datum bm o i = Ok d /\ table_shows bm d (nr i) (ne i))
  /\ (~ fits -> exists e, bl_make Debug (sigd_gd Debug) v (vbeg v + off) n true = Throw e).
Proof.
  intros I Ho Hn Hl Hu Hc fits.
  apply (bl_decides sigd_gd v off n loc (fun i => 2 + 2 * nr i + 2 * ne i) (fun bm i d => table_shows bm d (nr i) (ne i))); auto.
  intros i Hi In. destruct (Hc i Hi) as (S & R & S' & R'). exact (td_decides _ (nr i) (ne i) In R R' S S').
Qed.
Print Assumptions C50_block_SIGD.
Theorem C50_block_SWD v off n (loc cnt : Z -> Z) : inside v -> 0 <= off <= size v -> 0 <= n < 2 ^ 31 ->
  (forall i, 1 <= i <= n -> states v i (loc i) /\ 1 <= loc i < 2 ^ 31) -> (forall i, 1 <= i < n -> loc i <= loc (i + 1)) ->
  (forall i, 1 <= i <= n -> states (entry v off n loc i) 2 (cnt i) /\ 0 <= cnt i < 2 ^ 30) ->
  let fits := block_fits v off n loc (fun i => 2 + 3 * cnt i) in
  (fits -> forall bm, exists o, bl_make bm (swd_gd bm) v (vbeg v + off) n true = Ok o /\ bl_n o = n
     /\ forall i, 1 <= i <= n -> exists d, bl_datum bm o i = Ok d /\ tp_numberValues bm d = Ok (cnt i)
          /\ returns (tp_values bm d) (cnt i) /\ returns (tp_pdf bm d) (cnt i) /\ returns (tp_cdf bm d) (cnt i))
  /\ (~ fits -> exists e, bl_make Debug (swd_gd Debug) v (vbeg v + off) n true = Throw e).
Proof.
  intros I Ho Hn Hl Hu Hc fits.
  apply (bl_decides swd_gd v off n loc (fun i => 2 + 3 * cnt i)
    (fun bm i d => tp_numberValues bm d = Ok (cnt i) /\ returns (tp_values bm d) (cnt i) /\ returns (tp_pdf bm d) (cnt i) /\ returns (tp_cdf bm d) (cnt i))); auto.
  intros i Hi In. destruct (Hc i Hi) as [S R]. exact (C50_tabulated_distribution _ (cnt i) In S R).
Qed.
Print Assumptions C50_block_SWD.

(** Law 4: any locators, also in any order; the i-th distribution starts at the word loc i - locb + 1 and ends at the next start
    behind it; [cnt i] is the number of values stated there *)
Theorem C50_outgoing_energies v nr ne locb (loc cnt : Z -> Z) : inside v -> 0 <= nr < 2 ^ 29 -> 0 <= ne < 2 ^ 29 -> 1 <= locb < 2 ^ 31 ->
  states v 1 nr -> states v (2 + 2 * nr) ne -> (forall i, 1 <= i <= ne -> states v (2 + 2 * nr + ne + i) (loc i) /\ 0 <= loc i < 2 ^ 31) ->
  let rel i := loc i - locb + 1 in
  (forall i, 1 <= i <= ne -> states (part v ne rel i) 2 (cnt i) /\ 0 <= cnt i < 2 ^ 30) ->
  let fit := dists_fit v (2 + 2 * nr + 2 * ne) ne rel (fun i => 2 + 3 * cnt i) in
  (fit -> forall bm, exists o, og_make bm locb v = Ok o /\ dd_NB bm o = Ok nr /\ dd_N bm o = Ok ne
     /\ forall i, 1 <= i <= ne -> exists d, dd_datum bm o i = Ok d /\ tp_numberValues bm (snd d) = Ok (cnt i)
          /\ returns (tp_values bm (snd d)) (cnt i) /\ returns (tp_pdf bm (snd d)) (cnt i) /\ returns (tp_cdf bm (snd d)) (cnt i))
  /\ (~ fit -> exists e, og_make Debug locb v = Throw e).
Proof.
  intros I Hr He Hb S1 S2 Hl rel Hc fit.
  apply (dd_decides (fun bm => tq_make bm) v nr ne locb loc (fun i => 2 + 3 * cnt i)
    (fun bm i d => tp_numberValues bm (snd d) = Ok (cnt i) /\ returns (tp_values bm (snd d)) (cnt i) /\ returns (tp_pdf bm (snd d)) (cnt i) /\ returns (tp_cdf bm (snd d)) (cnt i))); auto.
  intros x i Hi In. destruct (Hc i Hi) as [S R]. fold rel in In |- *. destruct (C50_tabulated_distribution _ (cnt i) In S R) as [A B]. split.
  - intros L bm. destruct (A L bm) as (d & E & H). exists (x, d). unfold tq_make. rewrite E. split; [reflexivity|exact H].
  - intros L. destruct (B L) as [e E]. unfold tq_make. rewrite E. eexists. reflexivity.
Qed.
Print Assumptions C50_outgoing_energies.

(** * Where Debug does not notice *)

(** A table behind words that are not there: the range is taken for a huge one and the vector is left.  Locators that decrease: the
    first entry of SIG is a range that ends before it begins. *)
Theorem C50_missing_words_refuted : inside (own []) /\ pt_generateBlocks Debug 1 (own []) = UB.
Proof. split; [apply own_inside; reflexivity|reflexivity]. Qed.
Print Assumptions C50_missing_words_refuted.
Theorem C50_decreasing_locators_refuted : let v := own [dbl 2; dbl 1; dbl 7] in
  inside v /\ bl_make Debug (sig_generateData Debug) v 2 2 true = UB.
Proof. split; [apply own_inside; reflexivity|vm_compute; reflexivity]. Qed.
Print Assumptions C50_decreasing_locators_refuted.

(** * The hypotheses are met *)

Ltac stated := intros w E; vm_compute in E; first [discriminate E | injection E as <-; split; vm_compute; reflexivity].

(** ten words, of which the first six are a table of one value and one region; the same five words are rejected *)
Example table_met : let v := own (map dbl [1; 1; 2; 1; 5; 6; 7; 8; 9; 10]) in
  inside v /\ states v 1 1 /\ states v (2 + 2 * 1) 1 /\ 2 + 2 * 1 + 2 * 1 <= size v /\ (forall bm, exists t, td_make bm v = Ok t).
Proof.
  split; [apply own_inside; reflexivity|]. split; [stated|]. split; [stated|]. split; [vm_compute; discriminate|].
  intros bm. destruct bm; eexists; vm_compute; reflexivity.
Qed.
Example table_short : let v := own (map dbl [1; 1; 2; 1; 5]) in
  inside v /\ states v 1 1 /\ states v (2 + 2 * 1) 1 /\ size v < 2 + 2 * 1 + 2 * 1 /\ td_make Debug v = Throw StdException.
Proof. split; [apply own_inside; reflexivity|]. split; [stated|]. split; [stated|]. split; vm_compute; reflexivity. Qed.

(** SIG with two entries of one and two cross sections: it fits; with the last word gone it does not *)
Definition sig_locs (i : Z) : Z := if i =? 1 then 1 else 4.
Definition sig_counts (i : Z) : Z := if i =? 1 then 1 else 2.
Definition sig_words : list double := map dbl [1; 4; 1; 1; 50; 2; 2; 60; 70].
Lemma two_cases (P : Z -> Prop) : P 1 -> P 2 -> forall i, 1 <= i <= 2 -> P i.
Proof. intros H1 H2 i Hi. assert (E : i = 1 \/ i = 2) by lia. destruct E as [-> | ->]; assumption. Qed.
Example sig_met : let v := own sig_words in
  inside v /\ 0 <= 2 <= size v
  /\ (forall i, 1 <= i <= 2 -> states v i (sig_locs i) /\ 1 <= sig_locs i < 2 ^ 31) /\ (forall i, 1 <= i < 2 -> sig_locs i <= sig_locs (i + 1))
  /\ (forall i, 1 <= i <= 2 -> states (entry v 2 2 sig_locs i) 2 (sig_counts i) /\ 0 <= sig_counts i < 2 ^ 30)
  /\ block_fits v 2 2 sig_locs (fun i => 2 + sig_counts i)
  /\ forall bm, exists o, bl_make bm (sig_generateData bm) v 2 2 true = Ok o.
Proof.
  split; [apply own_inside; reflexivity|]. split; [split; vm_compute; discriminate|].
  split; [apply two_cases; (split; [stated|split; vm_compute; (discriminate || reflexivity)])|].
  split; [intros i Hi; assert (E : i = 1) by lia; rewrite E; vm_compute; discriminate|].
  split; [apply two_cases; (split; [stated|split; vm_compute; (discriminate || reflexivity)])|].
  split; [split; [lia|apply two_cases; (split; [split; vm_compute; discriminate|vm_compute; discriminate])]|].
  intros [|]; eexists; vm_compute; reflexivity.
Qed.
Example sig_short : let v := own (removelast sig_words) in
  ~ block_fits v 2 2 sig_locs (fun i => 2 + sig_counts i) /\ bl_make Debug (sig_generateData Debug) v 2 2 true = Throw StdException.
Proof.
  split; [|vm_compute; reflexivity]. intros [_ H]. destruct (H 2 ltac:(lia)) as [_ X]. apply X. vm_compute. reflexivity.
Qed.

(** law 4 with two distributions, stored in the order 2, 1 *)
Definition og_locs (i : Z) : Z := if i =? 1 then 12 else 7.
Definition og_words : list double := map dbl [0; 2; 10; 20; 12; 7; 1; 1; 5; 0; 1; 1; 1; 6; 0; 1].
Example og_met : let v := own og_words in let rel i := og_locs i - 1 + 1 in
  inside v /\ states v 1 0 /\ states v (2 + 2 * 0) 2
  /\ (forall i, 1 <= i <= 2 -> states v (2 + 2 * 0 + 2 + i) (og_locs i) /\ 0 <= og_locs i < 2 ^ 31)
  /\ (forall i, 1 <= i <= 2 -> states (part v 2 rel i) 2 1 /\ 0 <= 1 < 2 ^ 30)
  /\ dists_fit v (2 + 2 * 0 + 2 * 2) 2 rel (fun _ => 2 + 3 * 1)
  /\ forall bm, exists o, og_make bm 1 v = Ok o.
Proof.
  split; [apply own_inside; reflexivity|]. split; [stated|]. split; [stated|].
  split; [apply two_cases; (split; [stated|split; vm_compute; (discriminate || reflexivity)])|].
  split; [apply two_cases; (split; [stated|lia])|].
  split; [split; [vm_compute; discriminate|apply two_cases; (split; [split; vm_compute; discriminate|split; vm_compute; discriminate])]|].
  intros [|]; eexists; vm_compute; reflexivity.
Qed.

(** the spectra: a general evaporation spectrum of one value with two bin boundaries *)
Example spectra_met : let v := own (map dbl [0; 1; 5; 6; 2; 8; 9]) in
  inside v /\ states v 1 0 /\ states v (2 + 2 * 0) 1 /\ states v (3 + 2 * 0 + 2 * 1) 2 /\ 3 + 2 * 0 + 2 * 1 + 2 <= size v.
Proof. split; [apply own_inside; reflexivity|]. split; [stated|]. split; [stated|]. split; [stated|]. vm_compute. discriminate. Qed.

Example bins_met : let v := own (map dbl [0; 2; 10; 20; 3; 1; 2; 3; 4; 5; 6]) in
  inside v /\ states v 1 0 /\ states v 2 2 /\ states v 5 3 /\ size v = 3 + 2 * 0 + 2 + 2 * 3.
Proof. split; [apply own_inside; reflexivity|]. split; [stated|]. split; [stated|]. split; [stated|]. reflexivity. Qed.
