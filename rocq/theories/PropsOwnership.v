(** Property theorems C26: copies, moves, assignments and destruction of blocks and tables. *)
From Coq Require Import ZArith Bool List Lia Arith Ascii.
From Verif Require Import Float Base DlwBlock FrameBlock EnergyBlocks MultiDist EnergyDist TableData SZA PropsEnergy PropsContinuous OwnershipAce.
From Verif Require Import ColumnData TabulatedData BlockWithLocators Angular AngularBlock DistributionData EnergyLaws EnergyAngle SimpleLaws ReactionNumbers NuBlock ElectronBlocks AtomicBlocks DosimetryTable ContinuousTable ThermalBlocks ThermalTable PhotoatomicTable PhotonuclearTable.
From Verif Require Import Ownership OwnershipSpec OwnershipProofs OwnershipMade.
Import ListNotations.
Open Scope Z_scope.

(** ** C26 *)

(** [ops] is any sequence of constructions (from values, and of views), copies, moves, assignments and
    destructions.  If as a program on values it is sensible ([vrun] succeeds: no variable is used before it
    is created, after it is destroyed or moved from, and no constructor reads outside its data), then the
    program with storage does no undefined operation, exactly the same variables are alive, and each of
    them that holds a value of its own shows the value that the program on values gives it. *)
Theorem C26_value_semantics : forall bm ops a, vrun no_vars ops = Some a ->
  exists s : state (ace bm), run start ops = Ok s
    /\ (forall x, s_env s x = None <-> a x = None)
    /\ (forall x v, a x = Some (Owns v) -> observe s x = Ok v).
Proof.
  intros bm ops a V. destruct (run_ok (ace_settled bm) ops start no_vars a start_related V) as (s & E & R).
  exists s. split; [exact E|]. split; [intros x; symmetry; eapply related_dead, R|]. intros x v. apply related_seen, R.
Qed.
Print Assumptions C26_value_semantics.

(** The same for any class that follows the scheme of base::Base and whose checks leave alone what they have
    settled before. *)
Theorem C26_value_semantics_any_class : forall (C : class) ops a, settled C -> vrun no_vars ops = Some a ->
  exists s : state C, run start ops = Ok s
    /\ (forall x, s_env s x = None <-> a x = None)
    /\ (forall x v, a x = Some (Owns v) -> observe s x = Ok v).
Proof.
  intros C ops a St V. destruct (run_ok St ops start no_vars a start_related V) as (s & E & R).
  exists s. split; [exact E|]. split; [intros x; symmetry; eapply related_dead, R|]. intros x v. apply related_seen, R.
Qed.
Print Assumptions C26_value_semantics_any_class.

(** Storage: every buffer of a live object is allocated, none is owned twice, and every allocated buffer is
    owned by a live object; so nothing is left when all objects are destroyed. *)
Theorem C26_no_sharing_no_leaks : forall bm ops a, vrun no_vars ops = Some a ->
  exists s : state (ace bm), run start ops = Ok s
    /\ (forall x o b, s_env s x = Some o -> In b (buffers o) -> cells (s_heap s) b <> None)
    /\ (forall x o, s_env s x = Some o -> NoDup (buffers o))
    /\ (forall x y o o' b, s_env s x = Some o -> s_env s y = Some o' -> In b (buffers o) -> In b (buffers o') -> x = y)
    /\ (forall b, cells (s_heap s) b <> None -> exists x o, s_env s x = Some o /\ In b (buffers o))
    /\ ((forall x, a x = None) -> forall b, cells (s_heap s) b = None).
Proof.
  intros bm ops a V. destruct (run_ok (ace_settled bm) ops start no_vars a start_related V) as (s & E & R).
  exists s. split; [exact E|]. destruct (related_buffers s a R) as [H1 H2]. split; [exact H1|].
  split; [intros x o; apply (related_nodup s a x o R)|]. split; [exact H2|]. split; [intros b; apply (related_buffer s a b R)|].
  intros N b. destruct (cells (s_heap s) b) eqn:Eb; [|reflexivity]. destruct (related_buffer s a b R) as (x & o & Ex & _); [congruence|].
  apply (proj1 (related_dead s a x R)) in N. congruence.
Qed.
Print Assumptions C26_no_sharing_no_leaks.

(** A copy, move or assignment gives [x] the value of [y], and [x] keeps it whatever is done afterwards to
    [y] and to other variables. *)
Theorem C26_transfer_keeps_the_value : forall bm pre o x y rest a v b,
  In o [Copy x y; Move x y; Assign x y; MoveAssign x y] -> x <> y ->
  vrun no_vars pre = Some a -> a y = Some (Owns v) -> vrun a (o :: rest) = Some b ->
  Forall (fun o : op (ace bm) => ~ changes o x) rest ->
  exists s0 s, run start pre = Ok s0 /\ observe s0 y = Ok v
    /\ run start (pre ++ o :: rest) = Ok s /\ observe s x = Ok v.
Proof.
  intros bm pre o x y rest a v b Ho D V Ay Vr F.
  destruct (run_ok (ace_settled bm) pre start no_vars a start_related V) as (s0 & E0 & R0).
  destruct (run_ok (ace_settled bm) (o :: rest) s0 a b R0 Vr) as (s & E & R).
  exists s0, s. split; [exact E0|]. split; [eapply related_seen; eassumption|]. split; [rewrite run_app, E0; exact E|].
  eapply related_seen; [exact R|]. cbn [vrun] in Vr. destruct (vstep a o) as [a1|] eqn:S; [|discriminate].
  rewrite (vrun_other rest a1 b x Vr F).
  cbn [In] in Ho. destruct Ho as [Ho | [Ho | [Ho | [Ho | []]]]]; subst o; cbn in S; rewrite Ay in S; destruct (a x); try discriminate;
    try (destruct (Nat.eqb_spec x y); [congruence|]); apply some_inj in S; subst a1; unfold upd; rewrite Nat.eqb_refl; reflexivity.
Qed.
Print Assumptions C26_transfer_keeps_the_value.

(** A view (a block built on iterators into the data of [y]) shows the same as long as [y] is not destroyed,
    assigned to or moved from. *)
Theorem C26_views_follow_the_owner : forall bm pre x y p i j z rest a a1 a2 v,
  vrun no_vars pre = Some a -> vstep a (ViewOn x y p i j z) = Some a1 -> a1 x = Some (Views v) -> vrun a1 rest = Some a2 ->
  Forall (fun o : op (ace bm) => ~ changes o x /\ ~ changes o y) rest ->
  exists s, run start (pre ++ ViewOn x y p i j z :: rest) = Ok s /\ observe s x = Ok v.
Proof. intros bm. exact (view_seen (ace_settled bm)). Qed.
Print Assumptions C26_views_follow_the_owner.

(** ** Examples *)

(** a tabulated function; a DLW block with two reactions, one with a multiplicity table, and its TYR block;
    a continuous-energy table *)
Definition x_tab := Eval vm_compute in map dbl [1; 3; 2; 3; 1; 2; 4; 10; 20; 40].
Definition x_dlw := Eval vm_compute in
  match dlw_of Debug [ISingle ex_level; ISingle ex_level] [MNum 2; MTab [] [] [dbl 1; dbl 20] [dbl 2; dbl 3]] [CentreOfMass; Laboratory] with
  | Ok o => (buf (dl_v o), buf (ty_v (dl_tyr o))) | _ => ([], []) end.
Definition x_ce := Eval vm_compute in
  match ex_table Debug ex_small with Ok t => ct_data t | _ => TData [] [] [] [] [] end.
Definition x_zaid : list ascii := ["9"; "2"; "2"; "3"; "5"; "."; "8"; "0"; "c"]%char.
(** the table as it is in files without NXS(9), (10) and (11) *)
Definition x_old := Eval vm_compute in firstn 8 (d_nxs x_ce) ++ [0; 0; 0] ++ skipn 11 (d_nxs x_ce).

Notation prog := (list (op (ace Debug))).
Notation new := (New (C := ace _)).
Notation view_on := (ViewOn (C := ace _)).
Definition shown (s : outcome (state (ace Debug))) (x : nat) : outcome (value (ace Debug)) := s <- s ;; observe s x.
Definition is_ok {A} (o : outcome A) : bool := match o with Ok _ => true | _ => false end.

(** the source of a copy is destroyed, then assigned to again: the copy is the value built by the constructor *)
Definition x_prog1 : prog := [new 0 FTabulated x_tab None; Copy 1 0; Destroy 0; new 0 FTabulated (map dbl [0; 1; 5; 6]) None; Assign 0 1; MoveAssign 1 0; Destroy 0].
Definition tabulated (v : outcome (value (ace Debug))) : outcome TabulatedData.tabulatedData := match v with Ok (_, _, STabulated o, _) => Ok o | _ => UB end.
Definition table (v : outcome (value (ace Debug))) : outcome ceTable := match v with Ok (_, _, SContinuous t, _) => Ok t | _ => UB end.
Example C26_tabulated_example : shown (run start x_prog1) 1 = built (C := ace Debug) FTabulated x_tab None
  /\ (o <- tabulated (shown (run start x_prog1) 1) ;; TabulatedData.td_x Debug o) = Ok [dbl 1; dbl 2; dbl 4].
Proof. split; vm_compute; reflexivity. Qed.
(** a DLW block with its TYR block, moved and copied *)
Definition x_prog2 : prog := [new 3 (FDlw 2) (fst x_dlw) (Some (FTyr 2, snd x_dlw)); Copy 4 3; Move 5 3; Destroy 4; Copy 6 5; Destroy 5; Destroy 3].
Example C26_energy_block_example : is_ok (built (C := ace Debug) (FDlw 2) (fst x_dlw) (Some (FTyr 2, snd x_dlw))) = true
  /\ shown (run start x_prog2) 6 = built (C := ace Debug) (FDlw 2) (fst x_dlw) (Some (FTyr 2, snd x_dlw)).
Proof. split; vm_compute; reflexivity. Qed.
(** a table read from an old file gets S, Z and A from its ZAID once; copies and moves have them *)
Definition x_table : fields := FTable Continuous x_zaid (d_iz x_ce) (d_aw x_ce) x_old (d_jxs x_ce).
Definition x_prog3 : prog := [new 0 x_table (d_xss x_ce) None; Copy 1 0; Destroy 0; Move 2 1; Copy 3 2; MoveAssign 3 2; Destroy 1; Destroy 2].
Example C26_table_example : is_ok (built (C := ace Debug) x_table (d_xss x_ce) None) = true
  /\ shown (run start x_prog3) 3 = built (C := ace Debug) x_table (d_xss x_ce) None
  /\ (t <- table (shown (run start x_prog3) 3) ;; Ok (ct_data t)) = Ok x_ce.
Proof. split; [|split]; vm_compute; reflexivity. Qed.
(** a view on the second table of a buffer, and a copy of it *)
Definition x_prog4 : prog := [new 0 FTabulated (x_tab ++ map dbl [0; 1; 5; 6]) None; view_on 1 0 FTabulated 10 14 None; Copy 2 1].
Example C26_view_example : shown (run start x_prog4) 2 = shown (run start x_prog4) 1
  /\ (v <- shown (run start x_prog4) 1 ;; Ok (snd (fst (fst v)))) = Ok (map dbl [0; 1; 5; 6])
  /\ (o <- tabulated (shown (run start x_prog4) 1) ;; TabulatedData.td_y Debug o) = Ok [dbl 6].
Proof. split; [|split]; vm_compute; reflexivity. Qed.
(** the programs above are sensible programs on values *)
Example C26_sensible : forallb (fun p : prog => match vrun no_vars p with Some _ => true | None => false end) [x_prog1; x_prog2; x_prog3; x_prog4] = true.
Proof. vm_compute. reflexivity. Qed.

(** ** The objects of C26 are those of the constructors *)

(** [ace] is the classes of ACEtk: of a range of words that a constructor accepts, the ownership model makes
    the very object of that constructor ([makes bm p d o]: it constructs from [d] an object of kind [p] with the
    parts [o]). *)
Theorem C26_laws_of_the_constructors : forall bm d,
  (forall o, td_make bm (range d) = Ok o -> makes bm FTabulated d (STabulated o))
  /\ (forall o, ev_make bm (range d) = Ok o -> makes bm FEvaporation d (SEvaporation o))
  /\ (forall o, ge_make bm (range d) = Ok o -> makes bm FGeneralEvaporation d (SGeneralEvaporation o))
  /\ (forall o, wa_make bm (range d) = Ok o -> makes bm FWatt d (SWatt o))
  /\ (forall o, tf_make bm (range d) = Ok o -> makes bm FFissionMultiplicity d (SPrefixed o))
  /\ (forall o, ts_make bm (range d) = Ok o -> makes bm FParticleMultiplicity d (SPrefixed o))
  /\ (forall o, SimpleLaws.eq_make bm (range d) = Ok o -> makes bm FEquiprobable d (SEquiprobable o))
  /\ (forall locb o, an_make bm locb (range d) = Ok o -> makes bm (FAngular locb) d (SAngular o))
  /\ (forall locb o, og_make bm locb (range d) = Ok o -> makes bm (FOutgoing locb) d (SOutgoing o))
  /\ (forall locb o, aed_make bm locb (range d) = Ok o -> makes bm (FAngleEnergy locb) d (SAngleEnergy o))
  /\ (forall locb o, ead_make bm locb (range d) = Ok o -> makes bm (FEnergyAngle locb) d (SEnergyAngle o))
  /\ (forall locb o, mu_make bm locb (range d) = Ok o -> makes bm (FMulti locb) d (SMulti o))
  /\ (forall number o, dp_make bm (range d) number = Ok o -> makes bm (FPrecursor number) d (SPrecursor o))
  /\ (forall npcr o, bd_make bm (range d) npcr = Ok o -> makes bm (FPrecursors npcr) d (SPrecursors o))
  /\ (forall o, nu_make bm (range d) = Ok o -> makes bm FNu d (SNu o))
  /\ (forall o, un_make bm (range d) = Ok o -> makes bm FUnr d (SUnr o))
  /\ (forall n o, ty_make bm (range d) n = Ok o -> makes bm (FTyr n) d (STyr o))
  /\ (forall n o, eb_make bm (range d) n = Ok o -> makes bm (FElectron n) d (SElectron o)).
Proof. exact laws_made. Qed.
Print Assumptions C26_laws_of_the_constructors.

(** The same for the blocks with locators, whose data begin right after the locators, and for those that
    hold a TYR block. *)
Theorem C26_blocks_of_the_constructors : forall bm d n,
  (forall zero o, ab_make bm (range d) (n + (if zero : bool then 1 else 0)) n zero = Ok o -> makes bm (FAnd n zero) d (SAnd (ab_data o)))
  /\ (forall o, bl_make bm (sigd_gd bm) (range d) n n true = Ok o -> makes bm (FSigd n) d (SSigd (bl_data o)))
  /\ (forall ntr w t o data, ty_make bm (range w) ntr = Ok t -> dl_make bm (range d) data t n = Ok o ->
        built (C := ace bm) (FDlw n) d (Some (FTyr ntr, w)) = Ok ((FDlw n, d, SDlw o), Some (FTyr ntr, w, STyr t)))
  /\ (forall o, dh_make bm (range d) n n None = Ok o -> makes bm (FDlwh n) d (SDlwh (bl_data (dh_block o)) (dh_frames o)))
  /\ (forall ntr w t o, ty_make bm (range w) ntr = Ok t -> dh_make bm (range d) n n (Some t) = Ok o ->
        built (C := ace bm) (FDlwh n) d (Some (FTyr ntr, w)) = Ok ((FDlwh n, d, SDlwh (bl_data (dh_block o)) (dh_frames o)), Some (FTyr ntr, w, STyr t))).
Proof. exact blocks_made. Qed.
Print Assumptions C26_blocks_of_the_constructors.

(** The same for the tables; continuous and photonuclear tables first settle their NXS arrays from their ZAIDs. *)
Theorem C26_tables_of_the_constructors : forall bm zaid iz aw nxs jxs d,
  let t := TData iz aw nxs jxs d in
  (forall o, th_make bm zaid t = Ok o -> makes bm (FTable Thermal zaid iz aw nxs jxs) d (SThermal o))
  /\ (forall o, pa_make bm zaid t = Ok o -> makes bm (FTable Photoatomic zaid iz aw nxs jxs) d (SPhotoatomic o))
  /\ (forall o, dt_make bm zaid t = Ok o -> makes bm (FTable Dosimetry zaid iz aw nxs jxs) d (SDosimetry o))
  /\ (forall o, ce_make bm zaid t = Ok o -> exists t', setSZA bm zaid t = Ok t' /\
        built (C := ace bm) (FTable Continuous zaid iz aw nxs jxs) d None
          = Ok ((FTable Continuous zaid (d_iz t') (d_aw t') (d_nxs t') (d_jxs t'), d, SContinuous o), None))
  /\ (forall o, pu_make bm zaid t = Ok o -> exists t', setSZA bm zaid t = Ok t' /\
        built (C := ace bm) (FTable Photonuclear zaid iz aw nxs jxs) d None
          = Ok ((FTable Photonuclear zaid (d_iz t') (d_aw t') (d_nxs t') (d_jxs t'), d, SPhotonuclear o), None)).
Proof. exact tables_made. Qed.
Print Assumptions C26_tables_of_the_constructors.

(** In particular the tabulated block used above. *)
Example C26_constructor_example : makes Debug FTabulated x_tab (match td_make Debug (range x_tab) with Ok o => STabulated o | _ => SUnr (Unr (own []) []) end).
Proof. vm_compute. reflexivity. Qed.

(** ** What is excluded *)

(** Copying, moving or assigning an object that was moved from is undefined or throws: its vector is empty but
    it still counts as the owner of its data, so its blocks are built again from nothing.  In order: a
    tabulated function (release and debug builds), DLW, a table. *)
Definition status {A} (o : outcome A) : option (option exc) := match o with Ok _ => None | Throw e => Some (Some e) | UB => Some None end.
Theorem C26_moved_from_refuted :
  status (run start [New (C := ace Release) 0 FTabulated x_tab None; Move 1 0; Copy 2 0]) = Some None
  /\ status (run start [New (C := ace Debug) 0 FTabulated x_tab None; Move 1 0; Copy 2 0]) = Some (Some OutOfRange)
  /\ status (run start [New (C := ace Release) 0 (FDlw 2) (fst x_dlw) (Some (FTyr 2, snd x_dlw)); Move 1 0; Copy 2 0]) = Some None
  /\ status (run start [New (C := ace Release) 0 x_table (d_xss x_ce) None; Move 1 0; Copy 2 0]) = Some None.
Proof. split; [|split; [|split]]; vm_compute; reflexivity. Qed.
(** Reading a view is undefined once the object it was made from is destroyed or assigned to. *)
Theorem C26_dangling_view_refuted :
  shown (run start (x_prog4 ++ [Destroy 0])) 1 = UB /\ shown (run start (x_prog4 ++ [Destroy 0])) 2 = UB
  /\ shown (run start (x_prog4 ++ [new 3 FTabulated x_tab None; Assign 0 3])) 1 = UB
  /\ is_ok (shown (run start (x_prog4 ++ [Move 3 0])) 1) = true.
Proof. repeat split; vm_compute; reflexivity. Qed.
(** Assigning to an object a view on its own data leaves a view on storage that was freed. *)
Theorem C26_assign_own_view_refuted : shown (run start (x_prog4 ++ [Assign 0 1])) 0 = UB.
Proof. vm_compute. reflexivity. Qed.
