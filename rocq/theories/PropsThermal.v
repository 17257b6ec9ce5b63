(** Properties of thermal scattering tables and their blocks (C24). *)
From Coq Require Import ZArith Bool List Lia Ascii.
From Coq Require Import ZifyBool ZifyNat.
From Verif Require Export ThermalTable.
Import ListNotations.
Open Scope Z_scope.

(** * The blocks *)

(** Discrete cosines, with or without probability *)
Theorem C24_discrete_cosines bm i : len (cn_words i) < max_words ->
  exists o, cos_of i = Ok o /\ cos_shows bm o i.
Proof.
  intros B. destruct (cos_of_ok i B) as (v & E & C). exists (cos_kind (cn_prob i) (len (cn_mu i)) v). split; [exact E|]. apply cos_content. exact C.
Qed.
Print Assumptions C24_discrete_cosines.
Example C24_discrete_cosines_ex : (o <- cos_of (InProb (dbl 1) (dbl 2) (dbl 3) [dbl 4; dbl 5]) ;; cos_cosines Debug o) = Ok [dbl 4; dbl 5].
Proof. vm_compute. reflexivity. Qed.

(** The inelastic distributions: built from values, or read from the words of such a block, the block gives the
    values back, for each form (IFENG), position in the table (locb) and number of energies. *)
Theorem C24_inelastic_block bm ifeng nc locb cs : it_valid ifeng nc cs -> 1 <= locb -> locb + 2 * len cs + len (concat (concat (cs_words cs))) < 2 ^ 31 ->
  (exists o, it_built bm ifeng locb cs = Ok o /\ content (it_v o) (it_layout ifeng locb cs) /\ it_shows bm ifeng nc cs o)
  /\ forall v, content v (it_layout ifeng locb cs) ->
       exists o, it_make bm ifeng (if ifeng <? 2 then first_count cs else 0) nc (len cs) locb v = Ok o /\ it_shows bm ifeng nc cs o.
Proof. exact (it_supplies bm ifeng nc locb cs). Qed.
Print Assumptions C24_inelastic_block.

Definition ex_cs0 : list (list cos_in) := [[InDisc (dbl 1) [dbl 2; dbl 3]; InDisc (dbl 4) [dbl 5; dbl 6]]; [InDisc (dbl 7) [dbl 8; dbl 9]; InDisc (dbl 10) [dbl 11; dbl 12]]].
Definition ex_cs2 : list (list cos_in) := [[InProb (dbl 1) (dbl 2) (dbl 3) [dbl 4]; InProb (dbl 5) (dbl 6) (dbl 7) [dbl 8]]; [InProb (dbl 9) (dbl 10) (dbl 11) [dbl 12]]].
Lemma ex_cs0_valid : it_valid 1 2 ex_cs0.
Proof.
  split; [lia|]. split; [|split].
  - unfold ex_cs0. repeat (apply Forall_cons; [repeat (apply Forall_cons; [split; reflexivity|]); apply Forall_nil|]). apply Forall_nil.
  - do 3 eexists. reflexivity.
  - intros _ c d [<-|[<-|[]]] [<-|[<-|[]]]; reflexivity.
Qed.
Lemma ex_cs2_valid : it_valid 2 1 ex_cs2.
Proof.
  split; [lia|]. split; [|split].
  - unfold ex_cs2. repeat (apply Forall_cons; [repeat (apply Forall_cons; [split; reflexivity|]); apply Forall_nil|]). apply Forall_nil.
  - do 3 eexists. reflexivity.
  - lia.
Qed.
Example C24_inelastic_block_ex :
  (o <- it_built Debug 2 7 ex_cs2 ;; n1 <- it_NIEB Debug o 1 ;; n2 <- it_NIEB Debug o 2 ;; d <- it_cosineData Debug o 2 1 ;; e <- cos_energy Debug d ;; c <- cos_cosines Debug d ;;
   Ok (n1, n2, e, c)) = Ok (2, 1, dbl 9, [dbl 12])
  /\ (o <- it_built Debug 1 1 ex_cs0 ;; d <- it_cosineData Debug o 2 2 ;; e <- cos_energy Debug d ;; c <- cos_cosines Debug d ;; Ok (e, c)) = Ok (dbl 10, [dbl 11; dbl 12]).
Proof. split; vm_compute; reflexivity. Qed.

(** Different numbers of outgoing energies are rejected for IFENG < 2 *)
Theorem C22_ragged_cosines_rejected bm cosines ws skewed locb nc c0 : it_front_NC cosines = Ok nc -> nth_error cosines 0 = Some c0 -> it_contents cosines = Ok ws ->
  ~ (forall c d, In c cosines -> In d cosines -> length c = length d) -> it_of01 bm cosines skewed locb = Throw StdException.
Proof.
  intros F N C R. unfold it_of01. rewrite F. cbn [bind]. unfold nth_or_UB. rewrite N. cbn [bind]. rewrite C. cbn [bind].
  assert (L : Forall2 (fun c w => length c = length w) cosines ws).
  { clear - C. revert ws C. induction cosines as [|c cosines IH]; intros ws C; unfold it_contents in C; cbn [mapM] in C.
    - apply Ok_inj in C. subst. constructor.
    - destruct (mapM (fun d => xss_all (cos_v d)) c) as [w|e|] eqn:E; cbn [bind] in C; try discriminate.
      destruct (mapM _ cosines) as [r|e|] eqn:E2; cbn [bind] in C; try discriminate. apply Ok_inj in C. subst. constructor; [|apply IH; exact E2].
      apply mapM_len in E. unfold len in E. lia. }
  unfold it_generateXSS01. destruct ws as [|w ws]; [inversion L; subst; discriminate|].
  rewrite it_append01_ragged; [reflexivity|]. intros G. apply R. intros c d Hc Hd.
  assert (X : forall c, In c cosines -> length c = length w).
  { clear - L G. rewrite Forall_forall in G. intros c Hc. induction L as [|c' w' cs ws' E L IH] in c, Hc, G |- *; [destruct Hc|]. destruct Hc as [->|Hc].
    - rewrite E. specialize (G w' (or_introl eq_refl)). unfold len in G. lia.
    - apply IH; [intros x Hx; apply G; right; exact Hx|exact Hc]. }
  rewrite (X c Hc), (X d Hd). reflexivity.
Qed.
Print Assumptions C22_ragged_cosines_rejected.
Example C22_ragged_cosines_ex : (ds <- mapM (mapM cos_of) [[InDisc (dbl 1) [dbl 2]]; [InDisc (dbl 1) [dbl 2]; InDisc (dbl 1) [dbl 2]]] ;; it_of01 Debug ds true 1) = Throw StdException.
Proof. vm_compute. reflexivity. Qed.

(** The one-based indices are checked in Debug builds *)
Theorem C24_cosine_index_checked ifeng nc cs o i j : it_shows Debug ifeng nc cs o -> len cs < 2 ^ 31 -> Forall (fun c => len c < 2 ^ 31) cs -> 0 <= i < 2 ^ 64 -> 0 <= j < 2 ^ 64 ->
  (forall k c, i = Z.of_nat k + 1 -> nth_error cs k = Some c -> ~ (1 <= j <= len c)) -> it_cosineData Debug o i j = Throw OutOfRange.
Proof.
  intros (_ & _ & Ne & Ni & _) B Bc Hi Hj H. unfold it_cosineData. cbn [debug]. unfold it_verifyIndex. rewrite Ne, u64_small by lia.
  unfold verifyIndex at 1, throw_if. destruct ((i <? 1) || (len cs <? i)) eqn:E; [reflexivity|]. cbn [bind].
  assert (exists c, nth_error cs (Z.to_nat (i - 1)) = Some c) as (c & Hc).
  { destruct (nth_error cs (Z.to_nat (i - 1))) eqn:X; [eexists; reflexivity|]. apply nth_error_None in X. unfold len in E. lia. }
  pose proof (Ni _ _ Hc) as N. replace (Z.of_nat (Z.to_nat (i - 1)) + 1) with i in N by lia. rewrite N. cbn [bind].
  specialize (H (Z.to_nat (i - 1)) c ltac:(lia) Hc). rewrite u64_small by lia. unfold verifyIndex, throw_if. replace ((j <? 1) || (len c <? j)) with true by lia. reflexivity.
Qed.
Print Assumptions C24_cosine_index_checked.
Example C24_cosine_index_ex : (o <- it_built Debug 2 7 ex_cs2 ;; it_cosineData Debug o 2 2) = Throw OutOfRange /\ (o <- it_built Debug 2 7 ex_cs2 ;; it_cosineData Debug o 3 1) = Throw OutOfRange.
Proof. split; vm_compute; reflexivity. Qed.

(** Cross sections and elastic distributions *)
Theorem C24_cross_section_block bm e xs : len xs = len e -> len (tc_layout e xs) < max_words ->
  (exists o, tc_of e xs = Ok o /\ content (cd_v o) (tc_layout e xs) /\ tc_shows bm e xs o)
  /\ forall v, content v (tc_layout e xs) -> exists o, tc_make v = Ok o /\ tc_shows bm e xs o.
Proof. exact (tc_supplies bm e xs). Qed.
Print Assumptions C24_cross_section_block.

Theorem C24_elastic_block bm nc cs : Forall (fun c => len c = nc) cs -> cs <> [] -> nc < 2 ^ 31 -> len cs < 2 ^ 31 -> len (concat cs) < max_words ->
  (exists o, te_of cs = Ok o /\ content (ad_v o) (concat cs) /\ te_shows bm nc cs o)
  /\ forall v, content v (concat cs) -> exists o, te_make v (len cs) nc = Ok o /\ te_shows bm nc cs o.
Proof. exact (te_supplies bm nc cs). Qed.
Print Assumptions C24_elastic_block.

(** * The table *)

(** A table built from valid values has the blocks with these values, the numbers and locators that describe them,
    and these words in order. *)
Theorem C24_thermal_table bm s v : th_valid v ->
  exists t, th_build bm (s ++ ["t"%char]) v = Ok t /\ th_returns bm (s ++ ["t"%char]) v t
    /\ d_jxs (tt_data t) = th_jxs v ++ zeros (32 - length (th_jxs v)).
Proof. intros V. destruct (th_from_values bm (s ++ ["t"%char]) v) as (t & E & R & J & _); [rewrite verifyType_spec; reflexivity|exact V|]. exists t. auto. Qed.
Print Assumptions C24_thermal_table.

Definition ex_th (ifeng nc : Z) (cs : list (list cos_in)) (ce : option (list double * list double)) (ca : option (list (list double)))
  (cei : option (list double * list double)) (cai : option (list (list double))) : thV :=
  ThV [1001; 6000] [dbl 1; dbl 2] [dbl 3; dbl 4] ifeng nc cs ce ca cei cai.
Definition ex_ce := ([dbl 1], [dbl 20]).
Definition ex_ca := [[dbl 1; dbl 2; dbl 3]].
Definition ex_cei := ([dbl 1; dbl 2], [dbl 30; dbl 31]).
Definition ex_cai := [[dbl 4; dbl 5]; [dbl 6; dbl 7]].
Lemma ex_th_valid ca : ca = None \/ ca = Some ex_ca -> th_valid (ex_th 2 1 ex_cs2 (Some ex_ce) ca (Some ex_cei) (Some ex_cai)).
Proof.
  intros Hca. constructor; cbn [ex_th tv_za tv_e tv_xs tv_ifeng tv_nc tv_cs tv_ce tv_ca tv_cei tv_cai].
  - split; [vm_compute; discriminate|]. repeat (apply Forall_cons; [lia|]). apply Forall_nil.
  - reflexivity.
  - reflexivity.
  - exact ex_cs2_valid.
  - reflexivity.
  - destruct Hca as [->| ->]; [exact I|]. exists ex_ce. split; [reflexivity|]. split; [|reflexivity]. split; [discriminate|]. split; [reflexivity|]. repeat (apply Forall_cons; [reflexivity|]). apply Forall_nil.
  - split; [reflexivity|]. split; [discriminate|]. split; [reflexivity|]. repeat (apply Forall_cons; [reflexivity|]). apply Forall_nil.
  - destruct Hca as [->| ->]; reflexivity.
Qed.
Example C24_thermal_table_ex :
  (t <- th_build Debug ["l"; "w"; "t"]%char (ex_th 2 1 ex_cs2 (Some ex_ce) (Some ex_ca) (Some ex_cei) (Some ex_cai)) ;;
   c <- deref_opt (tt_itcai t) ;; x <- te_cosines Debug c 2 ;; d <- it_cosineData Debug (tt_itxe t) 1 2 ;; e <- cos_energy Debug d ;;
   Ok (firstn 10 (d_jxs (tt_data t)), firstn 8 (d_nxs (tt_data t)), x, e))
  = Ok ([1; 4; 6; 22; 24; 25; 28; 31; 33; 0], [36; 3; 2; 0; 5; 2; 2; 1], [dbl 6; dbl 7], dbl 5).
Proof. vm_compute. reflexivity. Qed.

(** ITIE and ITXE must have the same number of energies *)
Theorem C22_thermal_energies_rejected bm zaid i iz ne opt : set_iz 0 (th_za i) (zeros 16) = Ok iz -> tc_NE bm (th_itie i) = Ok ne -> 0 <= ne < 2 ^ 32 -> th_options i = Ok opt ->
  ne <> it_ne (th_itxe i) -> th_of bm zaid i = Throw StdException.
Proof.
  intros Hiz N B O D. unfold th_of, th_generateData. rewrite Hiz. cbn [bind]. rewrite N. cbn [bind]. rewrite O. cbn [bind]. destruct opt as [[a b] c].
  rewrite u32_small by lia. replace (ne =? it_ne (th_itxe i)) with false by lia. reflexivity.
Qed.
Print Assumptions C22_thermal_energies_rejected.
Example C22_thermal_energies_ex : (itie <- tc_of [dbl 1] [dbl 2] ;; x <- it_built Debug 2 4 ex_cs2 ;; th_of Debug ["t"]%char (ThIn [1001] itie x None None None None)) = Throw StdException.
Proof. vm_compute. reflexivity. Qed.

(** Only ZAIDs ending in 't' are accepted *)
Theorem C24_type_rejected bm s c d : c <> "t"%char -> th_make bm (s ++ [c]) d = Throw StdException.
Proof.
  intros N. unfold th_make. rewrite verifyType_spec. cbn [existsb orb]. destruct (Ascii.eqb_spec c "t"); [contradiction|]. reflexivity.
Qed.
Print Assumptions C24_type_rejected.

(** * Outside of these conditions *)

(** The tabulated form keeps the locators for the position given to its constructor: with the default position (1),
    the table cannot be built. *)
Theorem C24_default_position_refuted :
  (itie <- tc_of [dbl 1; dbl 2] [dbl 3; dbl 4] ;; x <- it_built Debug 2 1 ex_cs2 ;; th_of Debug ["t"]%char (ThIn [1001] itie x None None None None)) = Throw OutOfRange.
Proof. vm_compute. reflexivity. Qed.
Print Assumptions C24_default_position_refuted.

(** The numbers of cosines are not compared: the block is read with the first one.  In the first case the second
    distribution (energy 5, cosines 6 and 7) comes back with the cosine 6 only; in the second case the distribution with
    energy 7 and cosines 8 and 9 comes back as energy 8 with cosines 9 and 10. *)
Theorem C24_ragged_cosine_numbers_refuted :
  (o <- it_built Debug 0 1 [[InDisc (dbl 2) [dbl 3]; InDisc (dbl 5) [dbl 6; dbl 7]]] ;; d <- it_cosineData Debug o 1 2 ;; e <- cos_energy Debug d ;; c <- cos_cosines Debug d ;; Ok (e, c)) = Ok (dbl 5, [dbl 6])
  /\ (o <- it_built Debug 0 1 [[InDisc (dbl 2) [dbl 3; dbl 4]; InDisc (dbl 5) [dbl 6]]; [InDisc (dbl 7) [dbl 8; dbl 9]; InDisc (dbl 10) [dbl 11; dbl 12]]] ;;
      d <- it_cosineData Debug o 2 1 ;; e <- cos_energy Debug d ;; c <- cos_cosines Debug d ;; Ok (e, c)) = Ok (dbl 8, [dbl 9; dbl 10]).
Proof. split; vm_compute; reflexivity. Qed.
Print Assumptions C24_ragged_cosine_numbers_refuted.

(** The number of energies of the elastic distributions is not compared with that of the elastic cross sections: two
    distributions with one energy come back as one. *)
Theorem C24_elastic_energies_refuted :
  (t <- th_build Debug ["t"]%char (ex_th 2 1 ex_cs2 (Some ex_ce) (Some [[dbl 1]; [dbl 2]]) None None) ;; a <- deref_opt (tt_itca t) ;; Ok (te_NE a)) = Ok 1
  /\ (a <- te_of [[dbl 1]; [dbl 2]] ;; Ok (te_NE a)) = Ok 2.
Proof. split; vm_compute; reflexivity. Qed.
Print Assumptions C24_elastic_energies_refuted.
