(** PhotonuclearTable. *)
From Coq Require Import ZArith Bool List Lia Ascii.
From Coq Require Import ZifyBool ZifyNat.
From Verif Require Import PropLemmasBasic.
From Verif Require Export PropsContinuous PhotoatomicRead.
Import ListNotations.
Open Scope Z_scope.

(** * Writing *)

(** The arguments of the constructor, src/ACEtk/PhotonuclearTable/src/ctor.hpp:102-112 *)
Record puIn := PuIn { ui_eszu : arrayData; ui_mtr : arrayData; ui_lqr : arrayData; ui_sig : blockWithLocators view;
  ui_ptype : option (list Z); ui_pxs : option (list view); ui_phn : option (list view); ui_mtrh : option (list arrayData);
  ui_sigh : option (list (blockWithLocators prefixedTabulated)); ui_andh : option (list angularBlock); ui_dlwh : option (list dlwh) }.

(** The words of the blocks of one secondary particle, and NTR of its MTRH block *)
Record puW := PuW { uw_n : Z; uw_pxs : list double; uw_phn : list double; uw_mtrh : list double; uw_tyrh : list double;
  uw_sigh : list double; uw_andh : list double; uw_dlwh : list double }.
(** The expressions x.value()[ index ].begin(), ...end() of src/generateData.hpp:92-110: value() throws when there is no
    value, [ index ] outside the vector is undefined *)
Definition pu_particle (i : puIn) (th : option (list tyr)) (k : nat) : outcome puW :=
  mt <- (l <- opt_value (ui_mtrh i) ;; nth_or_UB l k) ;;
  p <- (l <- opt_value (ui_pxs i) ;; o <- nth_or_UB l k ;; xss_all o) ;;
  h <- (l <- opt_value (ui_phn i) ;; o <- nth_or_UB l k ;; xss_all o) ;;
  m <- xss_all (ad_v mt) ;;
  t <- (l <- opt_value th ;; o <- nth_or_UB l k ;; xss_all (ty_v o)) ;;
  s <- (l <- opt_value (ui_sigh i) ;; o <- nth_or_UB l k ;; xss_all (bl_v o)) ;;
  a <- (l <- opt_value (ui_andh i) ;; o <- nth_or_UB l k ;; xss_all (ab_v o)) ;;
  d <- (l <- opt_value (ui_dlwh i) ;; o <- nth_or_UB l k ;; xss_all (bl_v (dh_block o))) ;;
  Ok (PuW (mt_NTR mt) p h m t s a d).

(** One iteration of the loop generateData.hpp:90-111: the locators are unsigned int *)
Definition pu_add_particle (size : Z) (st : list double * list (list Z)) (p : puW) : list double * list (list Z) :=
  let '(xss, ixs) := st in
  let i0 := u32 (len xss + size + 1) in
  let xss := xss ++ uw_pxs p in
  let i1 := u32 (len xss + size + 1) in
  let xss := xss ++ uw_phn p in
  let i2 := u32 (len xss + size + 1) in
  let xss := xss ++ uw_mtrh p in
  let i3 := u32 (len xss + size + 1) in
  let xss := xss ++ uw_tyrh p in
  let i4 := u32 (len xss + size + 1) in
  let i5 := u32 (len xss + size + uw_n p + 1) in
  let xss := xss ++ uw_sigh p in
  let i6 := u32 (len xss + size + 1) in
  let i7 := u32 (len xss + size + uw_n p + 1) in
  let xss := xss ++ uw_andh p in
  let i8 := u32 (len xss + size + 1) in
  let i9 := u32 (len xss + size + uw_n p + 1) in
  let xss := xss ++ uw_dlwh p in
  (xss, ixs ++ [[i0; i1; i2; i3; i4; i5; i6; i7; i8; i9]]).

(** generateData.hpp:62-74.  [nes]: eszu.NES(); [e]: eszu.elastic().empty() *)
Definition pu_conventional (i : puIn) (nes ntr : Z) (e : bool) : outcome jx :=
  j <- upd 0 1 (zeros 32) ;;
  j <- upd 1 (nes + 1) j ;;
  j <- upd 2 (if e then nes + 1 else 0) j ;;
  j <- upd 3 (if e then 0 else 2 * nes + 1) j ;;
  j <- upd 4 (if e then 2 * nes + 1 else 3 * nes + 1) j ;;
  st <- append (ad_v (ui_eszu i)) (j, []) ;;
  st <- mark 5 1 st ;; st <- append (ad_v (ui_mtr i)) st ;;
  st <- mark 6 1 st ;; st <- append (ad_v (ui_lqr i)) st ;;
  st <- mark 7 1 st ;; st <- mark 8 (ntr + 1) st ;; append (bl_v (ui_sig i)) st.

(** generateData.hpp:75-116 *)
Definition pu_secondary (i : puIn) (th : option (list tyr)) (st : jx) : outcome jx :=
  match ui_ptype i with
  | None => Ok st
  | Some types =>
      let ntype := u32 (len types) in
      ms <- opt_value (ui_mtrh i) ;;
      let size := u32 (ntype * 12) in
      st <- mark 9 1 st ;; st <- mark 10 (size + 1) st ;;
      ps <- mapM (fun k => pu_particle i th (Z.to_nat k)) (seqZ 0 (Z.to_nat ntype)) ;;
      let '(xss', ixs) := fold_left (pu_add_particle size) ps (snd st, []) in
      o <- iu_of types (map mt_NTR ms) ixs ;;
      w <- xss_all (nt_v o) ;;
      Ok (fst st, firstn (length (snd st)) xss' ++ w ++ skipn (length (snd st)) xss')
  end.

(** generateData.hpp:22-144 *)
Definition pu_generateData bm (z a s : Z) (i : puIn) : outcome tdata :=
  let ntr := mt_NTR (ui_mtr i) in
  let ntype := match ui_ptype i with Some l => u32 (len l) | None => 0 end in
  th <- ce_generateTYRH bm (ui_dlwh i) ;;
  _ <- throw_if (negb (ntr =? mt_NTR (ui_lqr i)) || negb (ntr =? bl_n (ui_sig i))) StdException ;;
  el <- eu_elastic bm (ui_eszu i) ;;
  let nes := eu_NES (ui_eszu i) in
  st <- pu_conventional i nes ntr (len el =? 0) ;;
  st <- pu_secondary i th st ;;
  Ok (TData (zeros 16) (dzeros 16)
       [len (snd st); u32 (u32 (z * 1000) + a); nes; ntr; ntype; 2; 12; 0; s; z; a; 0; 0; 0; 0; 1] (fst st) (snd st)).

(** * Reading *)

(** The blocks of one secondary particle, and the fields, src/ACEtk/PhotonuclearTable.hpp:31-43 *)
Record puPart := PuPart { up_pxs : view; up_phn : view; up_mtrh : arrayData; up_tyrh : tyr; up_sigh : blockWithLocators prefixedTabulated;
  up_andh : angularBlock; up_dlwh : dlwh }.
Record puTable := PuTable { ut_zaid : list ascii; ut_data : tdata; ut_eszu : arrayData; ut_mtr : arrayData; ut_lqr : arrayData;
  ut_sig : blockWithLocators view; ut_ixs : option ntro; ut_particles : list puPart }.

(** NXS accessors, PhotonuclearTable.hpp:117-177 *)
Definition pu_N bm d k : outcome Z := n <- d_NXS bm d k ;; Ok (u32 n).
Definition pu_length bm d := pu_N bm d 1.
Definition pu_ZA bm d := pu_N bm d 2.
Definition pu_NES bm d := pu_N bm d 3.
Definition pu_NTR bm d := pu_N bm d 4.
Definition pu_NTYPE bm d := pu_N bm d 5.
Definition pu_S bm d := pu_N bm d 9.
Definition pu_Z bm d := pu_N bm d 10.
Definition pu_A bm d := pu_N bm d 11.

(** block( particle, index ), src/generateBlocks.hpp:28-48: the words of IXS after the locator are compared as doubles.
    [block( index )] is [pa_block]. *)
Definition pu_pblock bm (d : tdata) (ixs : ntro) (particle index : Z) : outcome (Z * Z) :=
  start <- iu_LLOC bm ixs particle index ;;
  let v := nt_v ixs in
  ws <- read_range (buf v) (vbeg v + (particle - 1) * 12 + index) (vend v) ;;
  e <- (match find (fun x => SFleb (dbl start) x) ws with Some x => trunc_to_size x | None => Ok 0 end) ;;
  Ok (start - 1, if negb (e =? 0) then e - 1 else len (d_xss d)).

(** generateBlocks.hpp:102-136 *)
Definition pu_particle_blocks bm (d : tdata) (ixs : ntro) (k : Z) : outcome puPart :=
  b <- pu_pblock bm d ixs k 3 ;; pxs <- xs_make bm (tview d (fst b) (snd b)) ;;
  b <- pu_pblock bm d ixs k 4 ;; phn <- xs_make bm (tview d (fst b) (snd b)) ;;
  np <- iu_NP bm ixs k ;;
  b <- pu_pblock bm d ixs k 5 ;; mtrh <- mt_make (tview d (fst b) (snd b)) np ;;
  b <- pu_pblock bm d ixs k 6 ;; tyrh <- ty_make bm (tview d (fst b) (snd b)) np ;;
  l <- pu_pblock bm d ixs k 7 ;; b <- pu_pblock bm d ixs k 8 ;;
  sigh <- bl_make bm (sigh_generateData bm) (tview d (fst l) (snd b)) (fst b) np true ;;
  l <- pu_pblock bm d ixs k 9 ;; b <- pu_pblock bm d ixs k 10 ;;
  andh <- ab_make bm (tview d (fst l) (snd b)) (fst b) np false ;;
  l <- pu_pblock bm d ixs k 11 ;; b <- pu_pblock bm d ixs k 12 ;;
  dlwh <- dh_make bm (tview d (fst l) (snd b)) (fst b) np (Some tyrh) ;;
  Ok (PuPart pxs phn mtrh tyrh sigh andh dlwh).

(** generateBlocks.hpp:50-139 *)
Definition pu_generateBlocks bm (zaid : list ascii) (d : tdata) : outcome puTable :=
  j4 <- d_JXS bm d 4 ;;
  l <- pa_block bm d 1 ;; b <- pa_block bm d 6 ;; nes <- pu_NES bm d ;;
  eszu <- eu_make (tview d (fst l) (fst b)) nes (if negb (j4 =? 0) then 4 else 3) ;;
  ntr <- pu_NTR bm d ;;
  b <- pa_block bm d 6 ;; mtr <- mt_make (tview d (fst b) (snd b)) ntr ;;
  b <- pa_block bm d 7 ;; lqr <- lq_make (tview d (fst b) (snd b)) ntr ;;
  l <- pa_block bm d 8 ;; b <- pa_block bm d 9 ;;
  sig <- bl_make bm (sig_generateData bm) (tview d (fst l) (snd b)) (fst b) ntr true ;;
  ntype <- pu_NTYPE bm d ;;
  if 0 <? ntype then
    b <- pa_block bm d 10 ;; ixs <- iu_make (tview d (fst b) (snd b)) ntype ;;
    ps <- mapM (pu_particle_blocks bm d ixs) (seqZ 1 (Z.to_nat ntype)) ;;
    Ok (PuTable zaid d eszu mtr lqr sig (Some ixs) ps)
  else Ok (PuTable zaid d eszu mtr lqr sig None []).

(** Constructors from a table, ctor.hpp:6-23, with verifyType.hpp:1-11, and from blocks, ctor.hpp:102-122.
    [setSZA]: S, Z and A are taken from the ZAID when all three are zero. *)
Definition pu_make bm (zaid : list ascii) (d : tdata) : outcome puTable :=
  _ <- verifyType ["u"%char] zaid ;;
  d <- setSZA bm zaid d ;;
  pu_generateBlocks bm zaid d.
Definition pu_of bm (z a s : Z) (zaid : list ascii) (i : puIn) : outcome puTable := d <- pu_generateData bm z a s i ;; pu_make bm zaid d.

(** PXS( index ), PHN( index ), MTRH( index ), ..., PhotonuclearTable.hpp:250-435: std::vector::operator[], not checked *)
Definition pu_at (t : puTable) (index : Z) : outcome puPart := at_ (ut_particles t) index.
