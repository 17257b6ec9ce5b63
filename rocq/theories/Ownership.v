(** Copies, moves and assignments of blocks and tables, in a model with storage.

    Elsewhere in this model an object is a value.  Here it is what the program has: iterators into
    buffers that are allocated and freed.  All blocks follow one scheme, that of base::Base
    (src/ACEtk/base/Base/src/ctor.hpp, generateData.hpp) and of the constructors and assignments of the
    classes with sub-blocks: copy or move the base and the fields, then, if the object owns its data,
    build the sub-blocks again.  The scheme is followed by
    base/{BlockWithLocators,AngularDistributionBlock,DistributionData,DistributionDataWithInterpolationType,
    ElectronBlockWithLocators,EvaporationSpectrum,TabulatedData}/src/ctor.hpp,
    continuous/{AngularDistributionData,DelayedNeutronPrecursorBlock,DelayedNeutronPrecursorData,
    EnergyDependentWattSpectrum,EnergyDistributionBlock,EquiprobableOutgoingEnergyBinData,
    FissionMultiplicityBlock,FrameAndMultiplicityBlock,GeneralEvaporationSpectrum,MultiDistributionData,
    ProbabilityTableBlock,SecondaryParticleEnergyDistributionBlock,TabulatedFissionMultiplicity,
    TabulatedSecondaryParticleMultiplicity}/src/ctor.hpp and thermal/InelasticAngularDistributionBlock/src/ctor.hpp;
    the other blocks have no sub-blocks and default copies.  Tables (ContinuousEnergyTable,
    ThermalScatteringTable, PhotoatomicTable, PhotonuclearTable, DosimetryTable, src/ctor.hpp) always own
    their data and build their blocks again after verifyType and setSZA. *)
From Coq Require Import ZArith Bool List Lia Arith.
From Verif Require Import Base.
Import ListNotations.
Open Scope Z_scope.

(** * Storage *)
Definition addr := nat.
Record heap := Heap { cells : addr -> option (list double); next : addr }.
Definition upd {A} (f : nat -> A) (k : nat) (x : A) : nat -> A := fun i => if Nat.eqb i k then x else f i.
Definition empty_heap : heap := Heap (fun _ => None) 0%nat.
Definition alloc (h : heap) (l : list double) : heap := Heap (upd (cells h) (next h) (Some l)) (S (next h)).
(** reading through an iterator into a buffer that was freed is undefined, and so is freeing it twice *)
Definition load (h : heap) (a : addr) : outcome (list double) := match cells h a with Some l => Ok l | None => UB end.
Definition free (h : heap) (a : addr) : outcome heap := match cells h a with Some _ => Ok (Heap (upd (cells h) a None) (next h)) | None => UB end.
Definition free_opt (h : heap) (a : option addr) : outcome heap := match a with Some a => free h a | None => Ok h end.

(** * Classes *)

(** What differs between the classes: the plain fields [P] (counts, locators, energies, frames; header, NXS
    and JXS of a table), the sub-blocks [T], how they are built from the fields, the data and the
    associated block (TYR in DLW and DLWH), what constructors and assignments of tables do before
    (verifyType, setSZA), and whether the move constructor copies the base
    (FissionMultiplicityBlock/src/ctor.hpp:13-14). *)
Record class := Class {
  P : Type; T : Type;
  gen : P -> view -> option T -> outcome T;
  on_construct : P -> outcome P;
  on_assign : P -> outcome P;
  move_copies : P -> bool }.

(** A block: name_ is not modelled; [c_own] is xss_, [c_at], [c_beg], [c_end] are begin_ and end_;
    [c_t] are the sub-blocks, whose iterators point into the buffer [c_src]. *)
Record core (C : class) := Core { c_par : P C; c_own : option addr; c_at : addr; c_beg : Z; c_end : Z; c_src : addr; c_t : T C }.
Arguments Core {C}. Arguments c_par {C}. Arguments c_own {C}. Arguments c_at {C}. Arguments c_beg {C}. Arguments c_end {C}. Arguments c_src {C}. Arguments c_t {C}.
Definition set_par {C} (p : P C) (c : core C) : core C := Core p (c_own c) (c_at c) (c_beg c) (c_end c) (c_src c) (c_t c).
(** An object: a block and, in DLW and DLWH, the associated TYR block (tyr_, tyrh_). *)
Record obj (C : class) := Obj { o_core : core C; o_member : option (core C) }.
Arguments Obj {C}. Arguments o_core {C}. Arguments o_member {C}.

(** ** Base::Base( const Base& ) and generateData, base/Base/src/ctor.hpp:3-7 *)
Definition base_copy {C} (h : heap) (c : core C) : outcome (heap * core C) :=
  match c_own c with
  | Some a => l <- load h a ;; Ok (alloc h l, Core (c_par c) (Some (next h)) (next h) 0 (len l) (c_src c) (c_t c))
  | None => Ok (h, c)
  end.
(** Base::Base( Base&& ), ctor.hpp:9-13: the new block and what is left of the old one.  The optional of the
    old one stays engaged, with an empty vector; its iterators are left alone. *)
Definition base_move {C} (h : heap) (c : core C) : outcome (heap * core C * core C) :=
  match c_own c with
  | Some a => l <- load h a ;;
      Ok (alloc h [], Core (c_par c) (Some a) a 0 (len l) (c_src c) (c_t c),
          Core (c_par c) (Some (next h)) (c_at c) (c_beg c) (c_end c) (c_src c) (c_t c))
  | None => Ok (h, c, c)
  end.
(** [if ( Base::owner() ) { this->generateBlocks(); }] *)
Definition generate {C} (h : heap) (c : core C) (m : option (core C)) : outcome (core C) :=
  l <- load h (c_at c) ;; t <- gen C (c_par c) (View l (c_beg c) (c_end c)) (option_map c_t m) ;;
  Ok (Core (c_par c) (c_own c) (c_at c) (c_beg c) (c_end c) (c_at c) t).
Definition regenerate {C} (h : heap) (c : core C) (m : option (core C)) : outcome (core C) :=
  match c_own c with Some _ => generate h c m | None => Ok c end.

(** the associated block: its own copy and move constructor *)
Definition member_copy {C} (h : heap) (m : option (core C)) : outcome (heap * option (core C)) :=
  match m with
  | None => Ok (h, None)
  | Some c => r <- base_copy h c ;; c <- regenerate (fst r) (snd r) None ;; Ok (fst r, Some c)
  end.
Definition member_move {C} (h : heap) (m : option (core C)) : outcome (heap * option (core C) * option (core C)) :=
  match m with
  | None => Ok (h, None, None)
  | Some c => r <- base_move h c ;; c <- regenerate (fst (fst r)) (snd (fst r)) None ;; Ok (fst (fst r), Some c, Some (snd r))
  end.

(** ** Copy constructor *)
Definition obj_copy {C} (h : heap) (o : obj C) : outcome (heap * obj C) :=
  r <- base_copy h (o_core o) ;;
  m <- member_copy (fst r) (o_member o) ;;
  p <- on_construct C (c_par (snd r)) ;;
  c <- regenerate (fst m) (set_par p (snd r)) (snd m) ;;
  Ok (fst m, Obj c (snd m)).
(** ** Move constructor *)
Definition obj_move {C} (h : heap) (o : obj C) : outcome (heap * obj C * obj C) :=
  r <- (if move_copies C (c_par (o_core o)) then r <- base_copy h (o_core o) ;; Ok (r, o_core o) else base_move h (o_core o)) ;;
  m <- member_move (fst (fst r)) (o_member o) ;;
  p <- on_construct C (c_par (snd (fst r))) ;;
  c <- regenerate (fst (fst m)) (set_par p (snd (fst r))) (snd (fst m)) ;;
  Ok (fst (fst m), Obj c (snd (fst m)), Obj (snd r) (snd m)).
(** the buffer of the target is released: vectors are assigned (their iterators become invalid) *)
Definition release {C} (h : heap) (o : obj C) : outcome heap :=
  h <- free_opt h (c_own (o_core o)) ;; match o_member o with Some m => free_opt h (c_own m) | None => Ok h end.
(** ** Copy assignment of [src] to [dst] *)
Definition obj_assign {C} (h : heap) (dst src : obj C) : outcome (heap * obj C) :=
  r <- base_copy h (o_core src) ;;
  m <- member_copy (fst r) (o_member src) ;;
  h <- release (fst m) dst ;;
  p <- on_assign C (c_par (snd r)) ;;
  c <- regenerate h (set_par p (snd r)) (snd m) ;;
  Ok (h, Obj c (snd m)).
(** ** Move assignment *)
Definition obj_move_assign {C} (h : heap) (dst src : obj C) : outcome (heap * obj C * obj C) :=
  r <- base_move h (o_core src) ;;
  m <- member_move (fst (fst r)) (o_member src) ;;
  h <- release (fst (fst m)) dst ;;
  p <- on_assign C (c_par (snd (fst r))) ;;
  c <- regenerate h (set_par p (snd (fst r))) (snd (fst m)) ;;
  Ok (h, Obj c (snd (fst m)), Obj (snd r) (snd m)).

(** ** Constructors *)

(** from values: the associated block and the block own their data *)
Definition obj_new {C} (h : heap) (p : P C) (d : list double) (m : option (P C * list double)) : outcome (heap * obj C) :=
  r <- match m with
       | None => Ok (h, None)
       | Some (mp, md) => t <- gen C mp (View md 0 (len md)) None ;;
           Ok (alloc h md, Some (Core mp (Some (next h)) (next h) 0 (len md) (next h) t))
       end ;;
  p <- on_construct C p ;;
  t <- gen C p (View d 0 (len d)) (option_map c_t (snd r)) ;;
  Ok (alloc (fst r) d, Obj (Core p (Some (next (fst r))) (next (fst r)) 0 (len d) (next (fst r)) t) (snd r)).
(** from iterators into the data of another object; the associated block is passed by value *)
Definition obj_view {C} (h : heap) (p : P C) (src : obj C) (b e : Z) (m : option (core C)) : outcome (heap * obj C) :=
  r <- member_copy h m ;;
  p <- on_construct C p ;;
  let a := c_at (o_core src) in
  l <- load (fst r) a ;;
  t <- gen C p (View l b e) (option_map c_t (snd r)) ;;
  Ok (fst r, Obj (Core p None a b e a t) (snd r)).

(** * Programs *)
Inductive op (C : class) :=
| New (x : nat) (p : P C) (d : list double) (m : option (P C * list double))
| ViewOn (x y : nat) (p : P C) (b e : Z) (z : option nat)
| Copy (x y : nat) | Move (x y : nat) | Assign (x y : nat) | MoveAssign (x y : nat) | Destroy (x : nat).
Arguments New {C}. Arguments ViewOn {C}. Arguments Copy {C}. Arguments Move {C}. Arguments Assign {C}. Arguments MoveAssign {C}. Arguments Destroy {C}.
Record state (C : class) := State { s_heap : heap; s_env : nat -> option (obj C) }.
Arguments State {C}. Arguments s_heap {C}. Arguments s_env {C}.
Definition start {C} : state C := State empty_heap (fun _ => None).
Definition var {C} (s : state C) (x : nat) : outcome (obj C) := match s_env s x with Some o => Ok o | None => UB end.
Definition unused {C} (s : state C) (x : nat) : outcome unit := match s_env s x with Some _ => UB | None => Ok tt end.
(** a constructor that throws leaves the state as it was *)
Definition caught {A} (o : outcome A) (a : A) : outcome A := match o with Throw _ => Ok a | o => o end.
Definition step {C} (s : state C) (o : op C) : outcome (state C) :=
  match o with
  | New x p d m => _ <- unused s x ;;
      caught (r <- obj_new (s_heap s) p d m ;; Ok (State (fst r) (upd (s_env s) x (Some (snd r))))) s
  | ViewOn x y p b e z => _ <- unused s x ;; src <- var s y ;;
      m <- match z with Some z => o <- var s z ;; Ok (Some (o_core o)) | None => Ok None end ;;
      caught (r <- obj_view (s_heap s) p src b e m ;; Ok (State (fst r) (upd (s_env s) x (Some (snd r))))) s
  | Copy x y => _ <- unused s x ;; src <- var s y ;;
      r <- obj_copy (s_heap s) src ;; Ok (State (fst r) (upd (s_env s) x (Some (snd r))))
  | Move x y => _ <- unused s x ;; src <- var s y ;;
      r <- obj_move (s_heap s) src ;; Ok (State (fst (fst r)) (upd (upd (s_env s) y (Some (snd r))) x (Some (snd (fst r)))))
  | Assign x y => dst <- var s x ;; src <- var s y ;;
      if Nat.eqb x y then Ok s else
      r <- obj_assign (s_heap s) dst src ;; Ok (State (fst r) (upd (s_env s) x (Some (snd r))))
  | MoveAssign x y => dst <- var s x ;; src <- var s y ;;
      if Nat.eqb x y then Ok s else
      r <- obj_move_assign (s_heap s) dst src ;; Ok (State (fst (fst r)) (upd (upd (s_env s) y (Some (snd r))) x (Some (snd (fst r)))))
  | Destroy x => o <- var s x ;; h <- release (s_heap s) o ;; Ok (State h (upd (s_env s) x None))
  end.
Fixpoint run {C} (s : state C) (l : list (op C)) : outcome (state C) :=
  match l with [] => Ok s | o :: l => s <- step s o ;; run s l end.

(** What can be observed of a block: its plain fields, its words and its sub-blocks.  The words are read
    through the iterators, the sub-blocks through theirs. *)
Definition observe_core {C} (h : heap) (c : core C) : outcome (P C * list double * T C) :=
  l <- load h (c_at c) ;; d <- read_range l (c_beg c) (c_end c) ;; _ <- load h (c_src c) ;; Ok (c_par c, d, c_t c).
Definition observe {C} (s : state C) (x : nat) : outcome ((P C * list double * T C) * option (P C * list double * T C)) :=
  o <- var s x ;; c <- observe_core (s_heap s) (o_core o) ;;
  m <- match o_member o with Some m => r <- observe_core (s_heap s) m ;; Ok (Some r) | None => Ok None end ;;
  Ok (c, m).
