(** Property theorems C21 and C22: continuous-energy tables built from blocks. *)
From Coq Require Import ZArith Bool List Lia Ascii.
From Coq Require Import Sorted Permutation.
From Coq Require Import ZifyBool ZifyNat.
From Verif Require Export CeFromValues.
Import ListNotations.
Open Scope Z_scope.

(** ** C21 *)

(** [i] are the block objects handed to the constructor; [s] (ContinuousLayout.v) gives for each of
    them its words and a claim that holds of every block read from exactly these words ([ce_reads]);
    [ce_sizes] and [ce_found] (ContinuousBlocks.v) are the conditions on sizes.  The table built
    from [i] shows for every block supplied a block with its claim, no block that was not supplied,
    and NXS, JXS and XSS are as described by [ce_nxs], [ce_locators] and [ce_words]. *)
Theorem C21_continuous_energy_round_trip : forall bm z a st zaid c i s,
  In c ["c"; "h"; "o"; "r"; "s"; "a"]%char ->
  ce_input bm i s -> ce_sizes s -> ce_found s -> ce_reads bm s ->
  (forall n, ci_dnu i = Some n -> exists o, nu_prompt n = NuTab o /\ tf_LNU bm o = Ok 2) ->
  0 <= z -> 0 <= a -> 1000 * z + a < 2 ^ 32 -> ~ (st = 0 /\ z = 0 /\ a = 0) ->
  exists f t, ce_fission s f /\ ce_of bm z a st (zaid ++ [c]) i = Ok t
    /\ ct_zaid t = zaid ++ [c]
    /\ ct_data t = TData (zeros 16) (dzeros 16) (ce_nxs z a st s) (ce_locators s f) (ce_words s)
    /\ ce_shows bm s t.
Proof.
  intros bm z a st zaid c i s Hc I HZ HD HR Hd Hz Ha Hza N. destruct (ce_data_ok bm z a st i s I HZ Hd Hz Ha Hza) as (f & F & E).
  destruct (ce_blocks_ok bm s f z a st (zaid ++ [c]) HZ F HD HR) as (t & T & T1 & T2 & T3).
  exists f, t. split; [exact F|]. split; [|exact (conj T1 (conj T2 T3))].
  unfold ce_of. rewrite E. cbn [bind]. unfold ce_make. rewrite verifyType_spec.
  assert (existsb (Ascii.eqb c) ["c"; "h"; "o"; "r"; "s"; "a"]%char = true) as X.
  { apply existsb_exists. exists c. split; [exact Hc|apply Ascii.eqb_refl]. }
  rewrite X. cbn [negb throw_if bind].
  rewrite (setSZA_kept bm _ _ st z a); [cbn [bind]; exact T| | | | |].
  - repeat split; reflexivity.
  - exact (fetch_in bm (ce_nxs z a st s) 8 st eq_refl eq_refl).
  - exact (fetch_in bm (ce_nxs z a st s) 9 z eq_refl eq_refl).
  - exact (fetch_in bm (ce_nxs z a st s) 10 a eq_refl eq_refl).
  - tauto.
Qed.
Print Assumptions C21_continuous_energy_round_trip.

(** The same from the user's values.  [v] holds the values; [ce_valid] (CeFromValues.v) says that
    the numbers of reactions, energies and groups agree, that every group of optional data given
    has at least one reaction or precursor group, and that numbers fit their types.  All block constructors
    succeed ([ce_build]), the table is built from the blocks, and its blocks return the values
    ([ce_returns]); blocks whose data were not given are absent. *)
Theorem C21_continuous_energy_from_values : forall bm asrt esrt z a st zaid c v,
  sort_contract asrt -> eqb_sort_contract esrt ->
  In c ["c"; "h"; "o"; "r"; "s"; "a"]%char ->
  ce_valid esrt v -> ce_size v < max_words -> 101 + v_n v < max_words ->
  0 <= z -> 0 <= a -> 1000 * z + a < 2 ^ 32 -> ~ (st = 0 /\ z = 0 /\ a = 0) ->
  exists i t, ce_build bm asrt esrt v = Ok i
    /\ ce_of bm z a st (zaid ++ [c]) i = Ok t
    /\ ct_zaid t = zaid ++ [c] /\ len (d_xss (ct_data t)) = ce_size v
    /\ ce_returns bm v t.
Proof.
  intros bm asrt esrt z a st zaid c v Hs He Hc V B B' Hz Ha Hza N.
  destruct (ce_from_values bm asrt esrt v Hs He V B B') as (i & s & E & I & SZ & FD & RD & DN & RT & L & _).
  destruct (C21_continuous_energy_round_trip bm z a st zaid c i s Hc I SZ FD RD DN Hz Ha Hza N) as (f & t & _ & T & T1 & T2 & T3).
  exists i, t. split; [exact E|]. split; [exact T|]. split; [exact T1|]. split; [rewrite T2; exact L|exact (RT t T3)].
Qed.
Print Assumptions C21_continuous_energy_from_values.

(** an instance of the sort used by law 1 *)
Fixpoint eqb_insert (d : eqb_in) (l : list eqb_in) : list eqb_in :=
  match l with [] => [d] | a :: r => if SFltb (fst d) (fst a) then d :: a :: r else a :: eqb_insert d r end.
Definition eqb_isort (l : list eqb_in) : list eqb_in := fold_right eqb_insert [] l.
Lemma eqb_insert_perm d l : Permutation (d :: l) (eqb_insert d l).
Proof. induction l as [|a r IH]; cbn [eqb_insert]; [reflexivity|]. destruct (SFltb _ _); [reflexivity|]. etransitivity; [apply perm_swap|]. constructor. exact IH. Qed.
Lemma eqb_isort_perm l : Permutation l (eqb_isort l).
Proof. induction l as [|d l IH]; cbn [eqb_isort fold_right]; [constructor|]. etransitivity; [apply perm_skip, IH|]. apply eqb_insert_perm. Qed.
Lemma eqb_isort_contract : eqb_sort_contract eqb_isort.
Proof.
  intros l H. split; [apply eqb_isort_perm|]. induction H as [|d l Hd Hl IH]; cbn [eqb_isort fold_right]; [constructor|]. fold (eqb_isort l).
  assert (Hl' : Forall (fun d => fst d <> S754_nan) (eqb_isort l)) by (apply (Permutation_Forall (eqb_isort_perm l)); exact Hl).
  revert Hl'. fold (eqb_isort l) in IH. induction IH as [|a r Hr IH Ha]; intros Hl'; cbn [eqb_insert]; [repeat constructor|].
  inversion Hl' as [|? ? Hna Hnr]; subst. match goal with |- context [if ?b then _ else _] => destruct b eqn:E end.
  - constructor; [constructor; assumption|]. constructor; [apply SFltb_asym; assumption|]. rewrite Forall_forall in Ha, Hnr |- *. intros x Hx. apply (SFltb_trans _ _ (fst a)); auto. apply Ha; exact Hx.
  - constructor; [apply IH; exact Hnr|]. apply (Permutation_Forall (eqb_insert_perm d r)). constructor; [exact E|exact Ha].
Qed.

(** An example with every block *)
Definition ex_ang : adist (list (angular (list double))) := DData [AIso (dbl 1); AEqui (dbl 3) (map dbl (seqZ 0 33))].
Definition ex_photon : photonV := PhotonV [dbl 41; dbl 42] [18001; 102001] [SigpXS 1 [dbl 5; dbl 6]; SigpMult 12 102 [] [] [dbl 1; dbl 20] [dbl 2; dbl 3]]
  [[dbl 13; dbl 1; dbl 2; dbl 5; dbl 6]; [dbl 12; dbl 102; dbl 0; dbl 2; dbl 1; dbl 20; dbl 2; dbl 3]] [DIso; ex_ang] [ISingle ex_level; ISingle ex_level] 22 [18; 102].
Definition ex_delayed : delayedV := DelayedV [] [] [dbl 1; dbl 20] [dbl 7; dbl 8] [C20_g1; C20_g1] [ISingle ex_level; ISingle ex_level] 22.
Definition ex_particle (ty : Z) : particleV := ParticleV ty 1 [dbl 3; dbl 4] [dbl 5; dbl 6] [102] [SighEntry 12 102 [] [] [dbl 1; dbl 20] [dbl 2; dbl 3]]
  [[dbl 12; dbl 102; dbl 0; dbl 2; dbl 1; dbl 20; dbl 2; dbl 3]] [ex_ang] [ISingle ex_level] [CentreOfMass] 11 [102].
Definition ex_unr : unrV := UnrV 2 2 (-1) (-1) 0 [C19_t 1 2; C19_t 20 2].
Definition ex_ce : ceV := CeV [dbl 1; dbl 20] [dbl 3; dbl 4] [dbl 5; dbl 6] [dbl 7; dbl 8] [dbl 9; dbl 10]
  (Some (IPoly [dbl 2; dbl 3], Some (ITab [] [] [dbl 1; dbl 20] [dbl 2; dbl 3]))) [16; 18; 102] [dbl 100; dbl 200; dbl 300]
  [SigEntry 1 [dbl 1; dbl 2]; SigEntry 1 [dbl 3; dbl 4]; SigEntry 2 [dbl 5]] ex_ang [DIso; DElse] [(MNum 2, ISingle ex_level); (MTab [] [] [dbl 1; dbl 20] [dbl 2; dbl 3], ISingle ex_level)]
  [CentreOfMass; Laboratory] 28 (Some ex_unr) (Some ex_delayed) (Some ex_photon) [ex_particle 1; ex_particle 31].

Lemma ex_level_valid srt : en_valid srt (ISingle ex_level) /\ en_size srt (ISingle ex_level) 11.
Proof.
  split; [|exists Debug; eexists; split; reflexivity]. split; [|intros []]. split; [exact I|]. exists Debug. eexists. split; [reflexivity|]. split; vm_compute; discriminate.
Qed.
Lemma ex_ang_ok : ab_ok ex_ang.
Proof. split; repeat constructor; try discriminate. Qed.
Ltac mtv := repeat (apply Forall_cons; [lia|]); apply Forall_nil.
Ltac fa VA VL := repeat (apply Forall_cons; [first [exact VA|exact VL|exact I]|]); apply Forall_nil.
Example C21_valid : ce_valid eqb_isort ex_ce /\ ce_size ex_ce < max_words /\ 101 + v_n ex_ce < max_words.
Proof.
  pose proof (ex_level_valid eqb_isort) as [VL SL]. pose proof ex_ang_ok as VA.
  assert (SL2 : en_sizes eqb_isort [ISingle ex_level; ISingle ex_level] 22) by (exists [11; 11]; split; [repeat constructor; exact SL|reflexivity]).
  split; [|split; vm_compute; reflexivity].
  constructor; cbn [ex_ce v_en v_tot v_dis v_el v_heat v_nu v_mts v_qs v_sig v_elastic v_ang v_dlw v_frames v_n v_unr v_delayed v_photon v_particles].
  - repeat (apply Forall_cons; [reflexivity|]); apply Forall_nil.
  - split; [exact I|split; reflexivity].
  - mtv.
  - reflexivity.
  - split; [|reflexivity]. repeat (apply Forall_cons; [cbn; lia|]); apply Forall_nil.
  - split; [|reflexivity]. fa VA VL.
  - split; [repeat (apply Forall_cons; [split; [|exact VL]|]); [cbn; lia|split; reflexivity|apply Forall_nil]|]. split.
    + exists [11; 17]. split; [|reflexivity]. apply Forall2_cons; [exists 11; split; [exact SL|reflexivity]|]. apply Forall2_cons; [exists 11; split; [exact SL|reflexivity]|]. apply Forall2_nil.
    + split; [repeat constructor; discriminate|vm_compute; discriminate].
  - intros u H. injection H as <-. split; [discriminate|]. split; [|cbn; lia]. repeat (apply Forall_cons; [repeat (apply Forall_cons; [reflexivity|]); apply Forall_nil|]); apply Forall_nil.
  - intros d H. injection H as <-. constructor; cbn [ex_delayed dv_nbt dv_int dv_x dv_y dv_groups dv_en dv_n].
    + split; reflexivity.
    + split; [|discriminate]. repeat (apply Forall_cons; [split; reflexivity|]); apply Forall_nil.
    + split; [fa VA VL|]. split; [exact SL2|reflexivity].
  - intros g H. injection H as <-. constructor; cbn [ex_photon gv_gpd gv_mts gv_sigp gv_sigw gv_ang gv_en gv_n gv_yp].
    + reflexivity.
    + split; [mtv|discriminate].
    + split; [repeat (apply Forall_cons; [cbn; lia|]); apply Forall_nil|]. split; [repeat (apply Forall_cons; [cbn; lia|]); apply Forall_nil|]. split; reflexivity.
    + split; [fa VA VL|reflexivity].
    + split; [fa VA VL|]. split; [exact SL2|reflexivity].
    + split; [mtv|discriminate].
  - split; [change (mt_valid [1; 31]); mtv|]. repeat (apply Forall_cons; [|]); [| |apply Forall_nil]; (constructor; cbn [ex_particle pv_type pv_index pv_prod pv_heat pv_mts pv_sigh pv_sigw pv_ang pv_en pv_frames pv_n pv_yh];
      [split; [vm_compute; split; discriminate|reflexivity]|mtv|split; [repeat (apply Forall_cons; [cbn; lia|]); apply Forall_nil|split; reflexivity]
      |split; [fa VA VL|reflexivity]|split; [fa VA VL|split; [exists [11]; split; [repeat constructor; exact SL|reflexivity]|split; reflexivity]]|mtv]).
  - discriminate.
Qed.

(** The table of the example, computed: from the values to the table and back. *)
Definition ex_table bm v : outcome ceTable := i <- ce_build bm an_isort eqb_isort v ;; ce_of bm 92 235 0 ["9"; "2"; "c"]%char i.
Definition words_of {A} (f : A -> view) (o : option A) : option Z := match o with Some x => Some (vend (f x) - vbeg (f x)) | None => None end.
Definition ex_look bm (t : ceTable) :=
  mts <- mt_MTs bm (ct_mtr t) ;; qs <- lq_QValues bm (ct_lqr t) ;;
  p <- nth_or_UB (ct_particles t) 1 ;; h <- hpd_heating bm (p_hpd p) ;;
  y <- deref_opt (ct_yp t) ;; ys <- yp_MTs bm y ;;
  d <- dl_distribution bm (ct_dlw t) 2 ;;
  Ok (mts, qs, h, ys, match d with Single e => ed_LAW e | _ => 0 end, len (d_xss (ct_data t)), d_nxs (ct_data t)).
Example C21_example : (t <- ex_table Debug ex_ce ;; ex_look Debug t)
  = Ok ([16; 18; 102], [dbl 100; dbl 200; dbl 300], [dbl 5; dbl 6], map dbl [18; 102], 3, ce_size ex_ce, [443; 92235; 2; 3; 2; 2; 2; 2; 0; 92; 235; 0; 0; 0; 0; 0]).
Proof. vm_compute. reflexivity. Qed.

(** Outside [ce_valid] blocks are lost or have more words than were supplied: photon production
    blocks without reactions are all absent; BDD and DNED of no groups are absent while DNU is
    there; without DNU, the UNR block of a table with photon production data runs into these data; when the
    last block before the secondary particles has one word, the previous block gets that word too (DLWP
    before a YP block without reaction numbers, and SIG before an AND block of isotropic elastic scattering). *)
Definition ex_with (f : option unrV * option delayedV * option photonV) : ceV :=
  let '(u, d, g) := f in
  CeV (v_en ex_ce) (v_tot ex_ce) (v_dis ex_ce) (v_el ex_ce) (v_heat ex_ce) (v_nu ex_ce) (v_mts ex_ce) (v_qs ex_ce) (v_sig ex_ce) (v_elastic ex_ce) (v_ang ex_ce)
    (v_dlw ex_ce) (v_frames ex_ce) (v_n ex_ce) u d g [].
Definition ex_small : ceV := CeV [dbl 1; dbl 20] [dbl 3; dbl 4] [dbl 5; dbl 6] [dbl 7; dbl 8] [dbl 9; dbl 10] None [102] [dbl 100] [SigEntry 1 [dbl 1; dbl 2]] DIso [] [] [] 0 None None None [].
Definition ex_both {X Y} (f : ceIn -> X) (g : ceTable -> Y) (v : ceV) : outcome (X * Y) :=
  i <- ce_build Debug an_isort eqb_isort v ;; t <- ce_of Debug 92 235 0 ["c"%char] i ;; Ok (f i, g t).
Theorem C21_table_refuted :
  ex_both (fun i => (given (ci_gpd i), given (ci_mtrp i), given (ci_yp i))) (fun t => (given (ct_gpd t), given (ct_mtrp t), given (ct_yp t)))
    (ex_with (None, None, Some (PhotonV [dbl 41; dbl 42] [] [] [] [] [] 0 [18]))) = Ok ((true, true, true), (false, false, false))
  /\ ex_both (fun i => (given (ci_dnu i), given (ci_bdd i), given (ci_dned i))) (fun t => (given (ct_dnu t), given (ct_bdd t), given (ct_dned t)))
    (ex_with (None, Some (DelayedV [] [] [dbl 1; dbl 20] [dbl 7; dbl 8] [] [] 0), None)) = Ok ((true, true, true), (true, false, false))
  /\ ex_both (fun i => words_of un_v (ci_unr i)) (fun t => words_of un_v (ct_unr t)) (ex_with (Some ex_unr, None, Some ex_photon)) = Ok (Some 32, Some 118)
  /\ ex_both (fun i => words_of (fun d => bl_v (dh_block d)) (ci_dlwp i)) (fun t => words_of (fun d => bl_v (dh_block d)) (ct_dlwp t))
    (ex_with (None, None, Some (PhotonV [dbl 41; dbl 42] [18001] [SigpXS 1 [dbl 5; dbl 6]] [[dbl 13; dbl 1; dbl 2; dbl 5; dbl 6]] [DIso] [ISingle ex_level] 11 []))) = Ok (Some 12, Some 13)
  /\ ex_both (fun i => words_of bl_v (Some (ci_sig i))) (fun t => words_of bl_v (Some (ct_sig t))) ex_small = Ok (Some 5, Some 6).
Proof. conc. Qed.
Print Assumptions C21_table_refuted.

(** A ZAID of another type is rejected. *)
Theorem C21_type_rejected : forall bm z a st zaid c i d, ce_generateData bm z a st i = Ok d ->
  ~ In c ["c"; "h"; "o"; "r"; "s"; "a"]%char -> ce_of bm z a st (zaid ++ [c]) i = Throw StdException.
Proof.
  intros bm z a st zaid c i d E H. unfold ce_of. rewrite E. cbn [bind]. unfold ce_make. rewrite verifyType_spec.
  assert (existsb (Ascii.eqb c) ["c"; "h"; "o"; "r"; "s"; "a"]%char = false) as X.
  { destruct (existsb _ _) eqn:X; [|reflexivity]. apply existsb_exists in X. destruct X as (x & X1 & X2). apply Ascii.eqb_eq in X2. subst x. contradiction. }
  rewrite X. reflexivity.
Qed.
Print Assumptions C21_type_rejected.

(** ** C22 *)

(** [ce_consistent] (ContinuousCheck.v) is the English condition on the blocks handed to the
    constructor; [ce_objects] are the facts every block object meets that its own constructor
    accepted.  Inconsistent blocks are rejected, whatever their contents. *)
Theorem C22_inconsistent_rejected : forall bm z a st zaid i mts,
  ce_objects bm i mts -> ~ ce_consistent i mts -> ce_of bm z a st zaid i = Throw StdException.
Proof. intros. eapply ce_rejected; eassumption. Qed.
Print Assumptions C22_inconsistent_rejected.

(** Consistent blocks with valid data are accepted: [i] are the blocks built from values ([ce_valid]). *)
Theorem C22_consistent_accepted : forall bm asrt esrt z a st zaid c v,
  sort_contract asrt -> eqb_sort_contract esrt -> In c ["c"; "h"; "o"; "r"; "s"; "a"]%char ->
  ce_valid esrt v -> ce_size v < max_words -> 101 + v_n v < max_words ->
  0 <= z -> 0 <= a -> 1000 * z + a < 2 ^ 32 -> ~ (st = 0 /\ z = 0 /\ a = 0) ->
  exists i t, ce_build bm asrt esrt v = Ok i /\ ce_objects bm i (v_mts v) /\ ce_consistent i (v_mts v) /\ ce_of bm z a st (zaid ++ [c]) i = Ok t.
Proof.
  intros bm asrt esrt z a st zaid c v Hs He Hc V B B' Hz Ha Hza N.
  destruct (ce_from_values bm asrt esrt v Hs He V B B') as (i & s & E & I & SZ & FD & RD & DN & _ & _ & M & _).
  destruct (C21_continuous_energy_round_trip bm z a st zaid c i s Hc I SZ FD RD DN Hz Ha Hza N) as (f & t & _ & T & _).
  destruct (ce_in_objects bm i s I SZ DN) as [O C]. rewrite M in O, C. exists i, t. auto.
Qed.
Print Assumptions C22_consistent_accepted.

(** The blocks of the example without NU, with one Q value too few, or without GPD meet the
    hypotheses of the rejection theorem. *)
Definition without_nu (i : ceIn) : ceIn := match i with CeIn a _ c d e f g h j k l m n o p q r s t u v w x y => CeIn a None c d e f g h j k l m n o p q r s t u v w x y end.
Definition with_lqr (o : arrayData) (i : ceIn) : ceIn := match i with CeIn a b c _ e f g h j k l m n o' p q r s t u v w x y => CeIn a b c o e f g h j k l m n o' p q r s t u v w x y end.
Definition without_gpd (i : ceIn) : ceIn := match i with CeIn a b c d e f g _ j k l m n o p q r s t u v w x y => CeIn a b c d e f g None j k l m n o p q r s t u v w x y end.
Example C22_example : exists i q, ce_build Debug an_isort eqb_isort ex_ce = Ok i /\ ce_objects Debug i [16; 18; 102] /\ ce_consistent i [16; 18; 102]
  /\ (ce_objects Debug (without_nu i) [16; 18; 102] /\ ~ ce_consistent (without_nu i) [16; 18; 102])
  /\ lq_of [dbl 100; dbl 200] = Ok q /\ (ce_objects Debug (with_lqr q i) [16; 18; 102] /\ ~ ce_consistent (with_lqr q i) [16; 18; 102])
  /\ (ce_objects Debug (without_gpd i) [16; 18; 102] /\ ~ ce_consistent (without_gpd i) [16; 18; 102]).
Proof.
  destruct C21_valid as (V & B & B').
  destruct (C22_consistent_accepted Debug an_isort eqb_isort 92 235 0 [] "c"%char ex_ce an_isort_contract eqb_isort_contract ltac:(left; reflexivity) V B B' ltac:(lia) ltac:(lia) ltac:(lia) ltac:(lia)) as (i & t & E & O & C & _).
  change (v_mts ex_ce) with [16; 18; 102] in O, C.
  assert (exists q, lq_of [dbl 100; dbl 200] = Ok q /\ mt_NTR q = 2) as (q & Q & Q2) by (eexists; conc).
  exists i, q. split; [exact E|]. split; [exact O|]. split; [exact C|].
  assert (G : ci_mtrp i <> None).
  { intros H. assert (X : (j <- ce_build Debug an_isort eqb_isort ex_ce ;; Ok (given (ci_mtrp j))) = Ok true) by (vm_compute; reflexivity). rewrite E in X. cbn [bind] in X. rewrite H in X. discriminate. }
  destruct i as [a b c d e f g h j k l m n o p q' r s t' u v w x y]. cbn [without_nu with_lqr without_gpd]. destruct O as [O1 O2 O3 O4]. cbn [ci_mtrp] in G.
  split; [|split; [exact Q|split]].
  - split; [constructor; assumption|]. intros [_ _ _ _ X _ _ _]. apply X; [right; left; reflexivity|reflexivity].
  - split; [constructor; assumption|]. intros [X _ _ _ _ _ _ _]. cbn [ci_lqr] in X. rewrite Q2 in X. discriminate.
  - split; [constructor; assumption|]. intros [_ _ _ _ _ X _ _]. unfold none in X. cbn [ci_gpd ci_mtrp ci_sigp ci_andp ci_dlwp ci_yp] in X.
    destruct X as [(_ & X & _)|(? & ? & ? & ? & ? & ? & X & _)]; [exact (G X)|discriminate].
Qed.

(** What is not checked: the number of photon production cross sections (SIGP) and of total photon
    production values (GPD), and the numbers of reactions within one secondary particle.  The table
    constructor may accept such blocks and show other data; and a DLWH block
    without reference frames ends in std::bad_optional_access. *)
Definition ex_photon1 : photonV := PhotonV [dbl 41; dbl 42] [18001] [SigpXS 1 [dbl 5; dbl 6]] [[dbl 13; dbl 1; dbl 2; dbl 5; dbl 6]] [DIso] [ISingle ex_level] 11 [18].
Definition ex_ragged : ceV :=
  CeV (v_en ex_ce) (v_tot ex_ce) (v_dis ex_ce) (v_el ex_ce) (v_heat ex_ce) (v_nu ex_ce) (v_mts ex_ce) (v_qs ex_ce) (v_sig ex_ce) (v_elastic ex_ce) (v_ang ex_ce)
    (v_dlw ex_ce) (v_frames ex_ce) (v_n ex_ce) None None None
    [ParticleV 1 1 [dbl 3; dbl 4] [dbl 5; dbl 6] [102] (pv_sigh (ex_particle 1)) (pv_sigw (ex_particle 1)) [DIso; DIso] [ISingle ex_level] [CentreOfMass] 11 [102]].
Theorem C22_unchecked_sizes_refuted :
  (** three total photon production values for two energies: the table has two *)
  ex_both (fun i => or0 ad_n (ci_gpd i)) (fun t => or0 ad_n (ct_gpd t))
    (ex_with (None, None, Some (PhotonV [dbl 41; dbl 42; dbl 43] (gv_mts ex_photon1) (gv_sigp ex_photon1) (gv_sigw ex_photon1) (gv_ang ex_photon1) (gv_en ex_photon1) 11 [18]))) = Ok (3, 2)
  (** two angular distributions for the only reaction of a secondary particle: the table has one *)
  /\ ex_both (fun i => map ab_nr (match ci_andh i with Some l => l | None => [] end)) (fun t => map (fun p => ab_nr (p_andh p)) (ct_particles t)) ex_ragged = Ok ([2], [1])
  (** a DLWH block without reference frames *)
  /\ (i <- ce_build Debug an_isort eqb_isort ex_ce ;; d <- dh_built Debug eqb_isort [ISingle ex_level] None ;;
      t <- ce_of Debug 92 235 0 ["c"%char] (match i with CeIn a b c d' e f g h j k l m n o p q r s t u v w _ y => CeIn a b c d' e f g h j k l m n o p q r s t u v w (Some [d; d]) y end) ;; Ok tt)
     = Throw BadOptional.
Proof. conc. Qed.
Print Assumptions C22_unchecked_sizes_refuted.
