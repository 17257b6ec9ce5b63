(** C50, continued: inelastic thermal scattering and dosimetry tables. *)
From Coq Require Import ZArith Bool List Lia Ascii.
From Verif Require Import PropLemmasBasic Truncated NuBlock AtomicBlocks ElectronBlocks ThermalBlocks Accepted Decide PropsDecide DecideMore AngularBlock DecideBlocks TableData DosimetryTable ReactionNumbers DecideThermal.
Import ListNotations.
Open Scope Z_scope.
Lemma fetch_at {A} bm (s : list A) i x : 1 <= i <= len s -> len s < 2 ^ 31 -> nth_error s (Z.to_nat (i - 1)) = Some x -> fetch bm s i = Ok x.
Proof.
  intros Hi L E. unfold fetch, check, seq_verify, verifyIndex, throw_if. rewrite (u64_small i) by lia.
  destruct ((i <? 1) || (len s <? i)) eqn:F; [lia|].
  replace (if debug bm then Ok tt else Ok tt) with (Ok tt) by (destruct (debug bm); reflexivity). cbn [bind]. rewrite u64_small by lia.
  destruct (Z.ltb_spec (i - 1) (len s)) as [_|X]; [|lia]. rewrite E. reflexivity.
Qed.

(** Inelastic thermal scattering with equal or skewed bins (IFENG 0 or 1): for each of [ne] energies, [nieb] outgoing energies with [nc] cosines. *)
Theorem C50_inelastic_cosines v ifeng nieb nc ne locb : inside v -> ifeng < 2 -> 0 <= nc < 2 ^ 31 -> 0 <= nieb < 2 ^ 31 -> 0 <= ne < 2 ^ 31 -> ne * nieb * (1 + nc) < 2 ^ 32 ->
  needs v (ne * nieb * (1 + nc)) (fun bm => it_make bm ifeng nieb nc ne locb v)
    (fun bm x => forall i j, 1 <= i <= ne -> 1 <= j <= nieb -> exists d, it_cosineData bm x i j = Ok d
       /\ cos_NC d = nc /\ (exists e, cos_energy bm d = Ok e) /\ returns (cos_cosines bm d) nc).
Proof. intros I Hf Hc Hb He B. exact (it_decides v nc nieb ne I Hc Hb He ifeng locb Hf B). Qed.
Print Assumptions C50_inelastic_cosines.
(** When the number of words does not fit in an unsigned int, a range without any words is accepted. *)
Theorem C50_inelastic_overflow_refuted : exists o d, it_make Debug 0 1 (2 ^ 31 - 1) 2 1 (own []) = Ok o /\ it_cosineData Debug o 1 1 = Ok d /\ cos_energy Debug d = UB.
Proof. eexists _, _. split; [vm_compute; reflexivity|]. split; [vm_compute; reflexivity|]. vm_compute. reflexivity. Qed.
Print Assumptions C50_inelastic_overflow_refuted.
Example inelastic_met : inside (own (map dbl [1; 2; 3; 4; 5; 6])) /\ 1 * 2 * (1 + 2) <= size (own (map dbl [1; 2; 3; 4; 5; 6])) /\ size (own (map dbl [1; 2; 3; 4; 5])) < 1 * 2 * (1 + 2).
Proof. split; [apply own_inside; reflexivity|]. split; vm_compute; (discriminate || reflexivity). Qed.

(** With tabulated cosines (IFENG 2): word [i] locates the [cnt i] sets of cosines of energy [i] (word [ne + i] is their number); a set has [3 + nc] words,
    and those of energy [i] end where the next ones start.  [nieb] is not used. *)
Theorem C50_tabulated_inelastic_cosines v ifeng nieb nc ne locb (loc cnt : Z -> Z) : inside v -> 2 <= ifeng -> 0 <= nc < 2 ^ 31 -> 1 <= ne < 2 ^ 30 -> 1 <= locb < 2 ^ 31 -> 2 * ne <= size v ->
  (forall i, 1 <= i <= ne -> states v i (loc i + locb - 2) /\ 1 <= loc i /\ loc i + locb <= 2 ^ 31) ->
  (forall i, 1 <= i <= ne -> states v (ne + i) (cnt i) /\ 1 <= cnt i < 2 ^ 30) ->
  (forall i, 1 <= i < ne -> loc i <= loc (i + 1)) ->
  let stop i := if i <? ne then loc (i + 1) else size v + 1 in
  (* no energy is short of more than one set *)
  (forall i, 1 <= i <= ne -> loc i <= size v + 1 -> stop i <= size v + 1 -> (cnt i - 1) * (3 + nc) <= stop i - loc i) ->
  decides (forall i, 1 <= i <= ne -> cnt i * (3 + nc) <= stop i - loc i) (fun bm => it_make bm ifeng nieb nc ne locb v)
    (fun bm x => forall i, 1 <= i <= ne -> it_NIEB bm x i = Ok (cnt i) /\ forall j, 1 <= j <= cnt i -> exists d, it_cosineData bm x i j = Ok d
       /\ cos_NC d = nc /\ (exists e, cos_energy bm d = Ok e) /\ (exists p, cos_pdf bm (cos_v d) = Ok p) /\ (exists c, cos_cdf bm (cos_v d) = Ok c) /\ returns (cos_cosines bm d) nc).
Proof. intros I Hf Hc He Hb Hs Hl Hn Hm stop Hr. exact (it2_decides v nc ne locb loc cnt I Hc He Hb Hs Hl Hn Hm Hr ifeng nieb Hf). Qed.
Print Assumptions C50_tabulated_inelastic_cosines.
(** An energy that is short of more than one set is accepted: here three sets of four words are asked for, and there is one. *)
Theorem C50_tabulated_cosines_refuted : let v := own (map dbl [2; 3; 1; 1; 0; 5]) in exists o d, it_make Debug 2 0 1 1 1 v = Ok o /\ it_NIEB Debug o 1 = Ok 3
  /\ it_cosineData Debug o 1 3 = Ok d /\ cos_energy Debug d = UB.
Proof. cbv zeta. eexists _, _. split; [vm_compute; reflexivity|]. split; [vm_compute; reflexivity|]. split; [vm_compute; reflexivity|]. vm_compute. reflexivity. Qed.
Print Assumptions C50_tabulated_cosines_refuted.
Example tabulated_inelastic_met : let v := own (map dbl [4; 8; 1; 2; 1; 1; 0; 5; 2; 1; 0; 5; 3; 1; 0; 5]) in
  let loc := fun i => if i =? 1 then 5 else 9 in let cnt := fun i => if i =? 1 then 1 else 2 in
  inside v /\ (forall i, 1 <= i <= 2 -> states v i (loc i + 1 - 2) /\ states v (2 + i) (cnt i)) /\ cnt 1 * (3 + 1) = loc 2 - loc 1 /\ cnt 2 * (3 + 1) = size v + 1 - loc 2
  /\ (forall bm, exists o, it_make bm 2 0 1 2 1 v = Ok o) /\ exists x, it_make Debug 2 0 1 2 1 (own (map dbl [4; 8; 1; 2; 1; 1; 0; 5; 2; 1; 0; 5; 3; 1; 0])) = Throw x.
Proof.
  cbv zeta. split; [apply own_inside; reflexivity|]. split.
  { intros i Hi. assert (C : i = 1 \/ i = 2) by lia. destruct C as [-> | ->]; split; stated. }
  split; [reflexivity|]. split; [reflexivity|]. split; [intros [|]; eexists; vm_compute; reflexivity|]. eexists. vm_compute. reflexivity.
Qed.

(** A dosimetry table: [mtr], [lsig] and [sig] are words 3, 6 and 7 of the JXS array, [ntr] word 4 of the NXS array. *)
Theorem C50_dosimetry_table zaid d mtr lsig sig ntr (loc nr ne : Z -> Z) :
  zaid <> [] -> len (d_nxs d) = 16 -> len (d_jxs d) = 32 -> len (d_xss d) < 2 ^ 31 ->
  nth_error (d_jxs d) 2 = Some mtr -> nth_error (d_jxs d) 5 = Some lsig -> nth_error (d_jxs d) 6 = Some sig -> nth_error (d_nxs d) 3 = Some ntr ->
  1 <= mtr <= lsig -> lsig <= sig <= len (d_xss d) + 1 -> 0 <= ntr < 2 ^ 31 ->
  let numbers := View (d_xss d) (mtr - 1) (lsig - 1) in
  let sections := View (d_xss d) (lsig - 1) (len (d_xss d)) in
  let e := entry sections (sig - lsig) ntr loc in
  (forall i, 1 <= i <= ntr -> states sections i (loc i) /\ 1 <= loc i < 2 ^ 31) -> (forall i, 1 <= i < ntr -> loc i <= loc (i + 1)) ->
  (forall i, 1 <= i <= ntr -> states (e i) 1 (nr i) /\ 0 <= nr i < 2 ^ 29 /\ states (e i) (2 + 2 * nr i) (ne i) /\ 0 <= ne i < 2 ^ 29) ->
  decides (last zaid "0"%char = "y"%char /\ ntr <= lsig - mtr /\ block_fits sections (sig - lsig) ntr loc (fun i => 2 + 2 * nr i + 2 * ne i))
    (fun bm => dt_make bm zaid d)
    (fun bm t => dt_NTR bm (dt_data t) = Ok ntr /\ mt_NTR (dt_mtr t) = ntr /\ bl_n (dt_sig t) = ntr
       /\ (forall i, 1 <= i <= ntr -> exists x, ad_dvalue bm (dt_mtr t) 1 i = Ok x)
       /\ forall i, 1 <= i <= ntr -> exists t', bl_datum bm (dt_sig t) i = Ok t' /\ table_shows bm t' (nr i) (ne i)).
Proof.
  intros Hz Ln Lj Lx J3 J6 J7 N4 Hm Hs Hn numbers sections e Hl Hu Hc. pose proof (len_nonneg (d_xss d)) as Nx.
  assert (I1 : inside numbers) by (unfold inside, framed, numbers, max_words; cbn [buf vbeg vend]; lia).
  assert (I2 : inside sections) by (unfold inside, framed, sections, max_words; cbn [buf vbeg vend]; lia).
  assert (V : verifyType ["y"%char] zaid = throw_if (negb (Ascii.eqb (last zaid "0"%char) "y")) StdException).
  { unfold verifyType. destruct (exists_last Hz) as (l & c & ->). rewrite rev_unit, last_last. cbn [existsb]. rewrite orb_false_r. reflexivity. }
  assert (F : forall bm, dt_make bm zaid d = (_ <- throw_if (negb (Ascii.eqb (last zaid "0"%char) "y")) StdException ;;
     m <- mt_make numbers ntr ;; s <- bl_make bm (sigd_gd bm) sections (vbeg sections + (sig - lsig)) ntr true ;; Ok (DosTable zaid d m s))).
  { intros bm. unfold dt_make, dt_NTR, d_JXS, d_NXS. rewrite V. destruct (throw_if _ _); cbn [bind]; [|reflexivity|reflexivity].
    rewrite (fetch_at bm (d_jxs d) 3 mtr) by (assumption || lia). cbn [bind].
    rewrite (fetch_at bm (d_jxs d) 6 lsig) by (assumption || lia). cbn [bind].
    rewrite (fetch_at bm (d_jxs d) 7 sig) by (assumption || lia). cbn [bind].
    rewrite (fetch_at bm (d_nxs d) 4 ntr) by (assumption || lia). cbn [bind]. rewrite u32_small by lia.
    unfold tview. fold numbers sections. replace (vbeg sections + (sig - lsig)) with (sig - 1) by (cbn [vbeg sections]; lia). reflexivity. }
  destruct (C50_array_data numbers ntr 1 I1 ltac:(lia) ltac:(lia) ltac:(lia)) as [A1 A2]. unfold mt_make in F. rewrite Z.mul_1_r in A1, A2.
  change (size numbers) with (lsig - 1 - (mtr - 1)) in A1, A2.
  destruct (C50_block_SIGD sections (sig - lsig) ntr loc nr ne I2) as [B1 B2]; [unfold size; cbn [vbeg vend sections]; lia|lia|exact Hl|exact Hu|exact Hc|].
  split.
  - intros (Z1 & L & Fi) bm. rewrite F, Z1. cbn [Ascii.eqb Bool.eqb negb throw_if bind]. destruct (A1 ltac:(lia) bm) as (m & Em & M1 & M2). rewrite Em. cbn [bind]. destruct (B1 Fi bm) as (s & -> & S1 & S2).
    cbn [bind]. eexists. split; [reflexivity|]. cbn [dt_data dt_mtr dt_sig]. split.
    { unfold dt_NTR, d_NXS. rewrite (fetch_at bm (d_nxs d) 4 ntr) by (assumption || lia). cbn [bind]. rewrite u32_small by lia. reflexivity. }
    split; [unfold ad_make in Em; destruct (ad_verifySize numbers ntr 1); cbn [bind] in Em; try discriminate; apply Ok_inj in Em; subst m; reflexivity|].
    split; [exact S1|]. split; [intros i Hi; apply M2; lia|exact S2].
  - intros N. rewrite F. destruct (Ascii.eqb_spec (last zaid "0"%char) "y"%char) as [Z1|Z1]; cbn [negb throw_if bind]; [|eexists; reflexivity].
    destruct (Z.leb_spec ntr (lsig - mtr)) as [L|L].
    + destruct (A1 ltac:(lia) Debug) as (m & -> & _). cbn [bind]. destruct B2 as (x & ->); [intros Q; apply N; auto|]. eexists. reflexivity.
    + destruct (A2 ltac:(lia)) as (x & ->). eexists. reflexivity.
Qed.
Print Assumptions C50_dosimetry_table.
(** The positions in the JXS array are not checked: here they are all behind the data. *)
Theorem C50_table_locators_refuted : let d := TData (zeros 16) (dzeros 16) (0 :: 0 :: 0 :: 1 :: zeros 12) (0 :: 0 :: 10 :: 0 :: 0 :: 11 :: 12 :: zeros 25) (map dbl [1; 2]) in
  data_wf d /\ dt_make Debug ["y"%char] d = UB.
Proof. cbv zeta. split; [repeat split|vm_compute; reflexivity]. Qed.
Print Assumptions C50_table_locators_refuted.

(** one reaction with a table of two values *)
Example dosimetry_met : let d := TData (zeros 16) (dzeros 16) (0 :: 0 :: 0 :: 1 :: zeros 12) (1 :: 0 :: 1 :: 0 :: 0 :: 2 :: 3 :: zeros 25) (map dbl [102; 1; 0; 1; 5; 6]) in
  let sections := View (d_xss d) 1 (len (d_xss d)) in
  len (d_nxs d) = 16 /\ len (d_jxs d) = 32 /\ states sections 1 1 /\ states (entry sections 1 1 (fun _ => 1) 1) 1 0 /\ states (entry sections 1 1 (fun _ => 1) 1) 2 1
  /\ block_fits sections 1 1 (fun _ => 1) (fun _ => 2 + 2 * 0 + 2 * 1) /\ forall bm, exists t, dt_make bm ["y"%char] d = Ok t.
Proof.
  cbv zeta. split; [reflexivity|]. split; [reflexivity|]. split; [stated|]. split; [stated|]. split; [stated|].
  split; [split; [lia|intros i Hi; assert (i = 1) as -> by lia; split; [split; vm_compute; discriminate|vm_compute; discriminate]]|].
  intros [|]; eexists; vm_compute; reflexivity.
Qed.
Example dosimetry_short : let d := TData (zeros 16) (dzeros 16) (0 :: 0 :: 0 :: 1 :: zeros 12) (1 :: 0 :: 1 :: 0 :: 0 :: 2 :: 3 :: zeros 25) (map dbl [102; 1; 0; 1; 5]) in
  dt_make Debug ["y"%char] d = Throw StdException.
Proof. vm_compute. reflexivity. Qed.
