(** ContinuousEnergyTable: building the XSS, JXS and NXS arrays from blocks, and finding the
    blocks of a table. *)
From Coq Require Import ZArith Bool List Lia Ascii.
From Coq Require Import ZifyBool ZifyNat.
From Verif Require Import PropLemmasBasic PropsBlocks.
From Verif Require Export SZA DosimetryTable.
Import ListNotations.
Open Scope Z_scope.

(** * Code: the component blocks *)

(** The arguments of the constructor from blocks,
    src/ACEtk/ContinuousEnergyTable/src/ctor.hpp:117-139 *)
Record ceIn := CeIn {
  ci_esz : arrayData; ci_nu : option nu; ci_mtr : arrayData; ci_lqr : arrayData;
  ci_sig : blockWithLocators view; ci_ang : angularBlock; ci_dlw : dlw;
  ci_gpd : option arrayData; ci_mtrp : option arrayData; ci_sigp : option (blockWithLocators photonProduction);
  ci_andp : option angularBlock; ci_dlwp : option dlwh; ci_yp : option view;
  ci_unr : option unr; ci_dnu : option nu; ci_bdd : option bdd; ci_dned : option dlwh;
  ci_ptype : option arrayData; ci_hpd : option (list view); ci_mtrh : option (list arrayData);
  ci_sigh : option (list (blockWithLocators prefixedTabulated)); ci_andh : option (list angularBlock);
  ci_dlwh : option (list dlwh); ci_yh : option (list view) }.

(** generateTYR, src/ACEtk/ContinuousEnergyTable/src/generateData.hpp:1-13; reading NR
    multiplicities when there are fewer is undefined. *)
Definition ce_generateTYR bm (o : dlw) (ntr : Z) : outcome tyr :=
  if len (ty_mults (dl_tyr o)) <? dl_NR o then UB
  else
    let extra := Z.to_nat (ntr - dl_NR o) in
    ty_of bm (dl_frames o ++ repeat Laboratory extra)
             (firstn (Z.to_nat (dl_NR o)) (ty_mults (dl_tyr o)) ++ repeat 0 extra).

(** optional::value() *)
Definition opt_value {A} (o : option A) : outcome A := match o with Some x => Ok x | None => Throw BadOptional end.
(** generateTYRH, generateData.hpp:15-34 *)
Definition ce_generateTYRH bm (os : option (list dlwh)) : outcome (option (list tyr)) :=
  match os with
  | None => Ok None
  | Some os =>
      ts <- mapM (fun o => fs <- mapM opt_value (dh_frames o) ;; ty_of_frames bm fs) os ;;
      Ok (Some ts)
  end.

Definition given {A} (o : option A) : bool := match o with Some _ => true | None => false end.
Definition or0 {A} (f : A -> Z) (o : option A) : Z := match o with Some x => f x | None => 0 end.

(** nu.LNU() of either alternative, generateData.hpp:144-145 *)
Definition nud_LNU bm (d : nu_data) : outcome Z := match d with NuPoly v => pf_LNU bm v | NuTab o => tf_LNU bm o end.

(** generateData.hpp:91-207: the checks, in order *)
Definition ce_verify bm (i : ceIn) (t : tyr) (th : option (list tyr)) : outcome unit :=
  let ntr := mt_NTR (ci_mtr i) in
  let nr := ab_nr (ci_ang i) in
  let ntrp := or0 mt_NTR (ci_mtrp i) in
  let ntype := or0 mt_NTR (ci_ptype i) in
  let npcr := or0 bd_NPCR (ci_bdd i) in
  _ <- throw_if (negb (ntr =? mt_NTR (ci_lqr i)) || negb (ntr =? ty_NTR t) || negb (ntr =? bl_n (ci_sig i))) StdException ;;
  _ <- throw_if (negb (nr =? ab_nr (ci_ang i)) || negb (nr =? dl_NR (ci_dlw i))) StdException ;;
  fission <- mt_hasMT (ci_mtr i) 18 ;;
  _ <- throw_if (fission && negb (given (ci_nu i))) StdException ;;
  let g := given (ci_gpd i) in let m := given (ci_mtrp i) in let s := given (ci_sigp i) in
  let a := given (ci_andp i) in let d := given (ci_dlwp i) in let y := given (ci_yp i) in
  _ <- throw_if ((g || m || s || a || d || y) && negb (g && m && s && a && d && y)) StdException ;;
  _ <- (if g then throw_if (negb (ntrp =? or0 ab_nr (ci_andp i)) || negb (ntrp =? or0 dh_NR (ci_dlwp i))) StdException else Ok tt) ;;
  _ <- (match ci_dnu i with
        | Some n =>
            _ <- throw_if (nu_both n) StdException ;;
            lnu <- nud_LNU bm (nu_prompt n) ;;
            throw_if (negb (lnu =? 2)) StdException
        | None => Ok tt
        end) ;;
  let u := given (ci_dnu i) in let b := given (ci_bdd i) in let e := given (ci_dned i) in
  _ <- throw_if ((u || b || e) && negb (u && b && e)) StdException ;;
  _ <- (if b then throw_if (negb (npcr =? or0 bd_NPCR (ci_bdd i)) || negb (npcr =? or0 dh_NR (ci_dned i))) StdException else Ok tt) ;;
  let p := given (ci_ptype i) in let h := given (ci_hpd i) in let mh := given (ci_mtrh i) in let t' := given th in
  let sh := given (ci_sigh i) in let ah := given (ci_andh i) in let dh := given (ci_dlwh i) in let yh := given (ci_yh i) in
  _ <- throw_if ((p || h || mh || t' || sh || ah || dh || yh) && negb (p && h && mh && t' && sh && ah && dh && yh)) StdException ;;
  if p then throw_if (negb (ntype =? or0 len (ci_hpd i)) || negb (ntype =? or0 len (ci_mtrh i)) || negb (ntype =? or0 len th)
    || negb (ntype =? or0 len (ci_sigh i)) || negb (ntype =? or0 len (ci_andh i)) || negb (ntype =? or0 len (ci_dlwh i))
    || negb (ntype =? or0 len (ci_yh i))) StdException
  else Ok tt.

(** * Code: the arrays *)

(** std::vector::operator[] of the lists of particle blocks: undefined outside *)
Definition nth_or_UB {A} (l : list A) (k : nat) : outcome A := match nth_error l k with Some x => Ok x | None => UB end.
(** operator* of an optional without a value is undefined; the checks exclude it *)
Definition deref_opt {A} (o : option A) : outcome A := match o with Some x => Ok x | None => UB end.

(** The words [begin(), end()) of the seven blocks of one secondary particle, and its NTR *)
Record partW := PartW { pw_n : Z; pw_hpd : list double; pw_mtrh : list double; pw_tyrh : list double; pw_sigh : list double;
  pw_andh : list double; pw_dlwh : list double; pw_yh : list double }.
Definition ce_particle (i : ceIn) (th : option (list tyr)) (k : nat) : outcome partW :=
  mt <- (l <- deref_opt (ci_mtrh i) ;; nth_or_UB l k) ;;
  h <- (l <- deref_opt (ci_hpd i) ;; o <- nth_or_UB l k ;; xss_all o) ;;
  m <- xss_all (ad_v mt) ;;
  t <- (l <- deref_opt th ;; o <- nth_or_UB l k ;; xss_all (ty_v o)) ;;
  s <- (l <- deref_opt (ci_sigh i) ;; o <- nth_or_UB l k ;; xss_all (bl_v o)) ;;
  a <- (l <- deref_opt (ci_andh i) ;; o <- nth_or_UB l k ;; xss_all (ab_v o)) ;;
  d <- (l <- deref_opt (ci_dlwh i) ;; o <- nth_or_UB l k ;; xss_all (bl_v (dh_block o))) ;;
  y <- (l <- deref_opt (ci_yh i) ;; o <- nth_or_UB l k ;; xss_all o) ;;
  Ok (PartW (mt_NTR mt) h m t s a d y).

(** One iteration of the loop generateData.hpp:288-309 *)
Definition ce_add_particle (size : Z) (st : list double * list (list Z)) (p : partW) : list double * list (list Z) :=
  let '(xss, ixs) := st in
  let i0 := u32 (len xss + size + 1) in
  let xss := xss ++ pw_hpd p in
  let i1 := u32 (len xss + size + 1) in
  let xss := xss ++ pw_mtrh p in
  let i2 := u32 (len xss + size + 1) in
  let xss := xss ++ pw_tyrh p in
  let i3 := u32 (len xss + size + 1) in
  let i4 := u32 (len xss + size + pw_n p + 1) in
  let xss := xss ++ pw_sigh p in
  let i5 := u32 (len xss + size + 1) in
  let i6 := u32 (len xss + size + pw_n p + 1) in
  let xss := xss ++ pw_andh p in
  let i7 := u32 (len xss + size + 1) in
  let i8 := u32 (len xss + size + pw_n p + 1) in
  let xss := xss ++ pw_dlwh p in
  let i9 := u32 (len xss + size + 1) in
  let xss := xss ++ pw_yh p in
  (xss, ixs ++ [[i0; i1; i2; i3; i4; i5; i6; i7; i8; i9]]).

Notation jx := (list Z * list double)%type.
(** jxs[ k ] = xss.size() + n; *)
Definition mark (k : nat) (n : Z) (st : jx) : outcome jx := j <- upd k (len (snd st) + n) (fst st) ;; Ok (j, snd st).
(** xss.insert( xss.end(), block.begin(), block.end() ); *)
Definition append (v : view) (st : jx) : outcome jx := w <- xss_all v ;; Ok (fst st, snd st ++ w).

(** generateData.hpp:209-263 *)
Definition ce_conventional (i : ceIn) (t : tyr) : outcome jx :=
  let ntr := mt_NTR (ci_mtr i) in
  let nr := ab_nr (ci_ang i) in
  let ntrp := or0 mt_NTR (ci_mtrp i) in
  let npcr := or0 bd_NPCR (ci_bdd i) in
  st <- mark 0 1 (zeros 32, []) ;; st <- append (ad_v (ci_esz i)) st ;;
  st <- (match ci_nu i with Some o => st <- mark 1 1 st ;; append (nu_v o) st | None => Ok st end) ;;
  st <- mark 2 1 st ;; st <- append (ad_v (ci_mtr i)) st ;;
  st <- mark 3 1 st ;; st <- append (ad_v (ci_lqr i)) st ;;
  st <- mark 4 1 st ;; st <- append (ty_v t) st ;;
  st <- mark 5 1 st ;; st <- mark 6 (ntr + 1) st ;; st <- append (bl_v (ci_sig i)) st ;;
  st <- mark 7 1 st ;; st <- mark 8 (nr + 1 + 1) st ;; st <- append (ab_v (ci_ang i)) st ;;
  st <- mark 9 1 st ;; st <- mark 10 (nr + 1) st ;; st <- append (dl_v (ci_dlw i)) st ;;
  st <- (match ci_unr i with Some o => st <- mark 22 1 st ;; append (un_v o) st | None => Ok st end) ;;
  st <- (match ci_dnu i with
         | Some o =>
             st <- mark 23 1 st ;; st <- append (nu_v o) st ;;
             b <- deref_opt (ci_bdd i) ;; st <- mark 24 1 st ;; st <- append (bd_v b) st ;;
             e <- deref_opt (ci_dned i) ;; st <- mark 25 1 st ;; st <- mark 26 (npcr + 1) st ;; append (bl_v (dh_block e)) st
         | None => Ok st
         end) ;;
  match ci_gpd i with
  | Some g =>
      st <- mark 11 1 st ;; st <- append (ad_v g) st ;;
      m <- deref_opt (ci_mtrp i) ;; st <- mark 12 1 st ;; st <- append (ad_v m) st ;;
      s <- deref_opt (ci_sigp i) ;; st <- mark 13 1 st ;; st <- mark 14 (ntrp + 1) st ;; st <- append (bl_v s) st ;;
      a <- deref_opt (ci_andp i) ;; st <- mark 15 1 st ;; st <- mark 16 (ntrp + 1) st ;; st <- append (ab_v a) st ;;
      d <- deref_opt (ci_dlwp i) ;; st <- mark 17 1 st ;; st <- mark 18 (ntrp + 1) st ;; st <- append (bl_v (dh_block d)) st ;;
      y <- deref_opt (ci_yp i) ;; st <- mark 19 1 st ;; append y st
  | None => Ok st
  end.

(** generateData.hpp:264-268 *)
Definition ce_ends bm (i : ceIn) (st : jx) : outcome jx :=
  fission <- mt_hasMT (ci_mtr i) 18 ;;
  st <- (if fission : bool then
           j7 <- nth_or_UB (fst st) 6 ;;
           loc <- (k <- mt_index (ci_mtr i) 18 ;; bl_LLOC bm (ci_sig i) k) ;;
           j <- upd 20 (j7 + loc - 1) (fst st) ;; Ok (j, snd st)
         else Ok st) ;;
  mark 21 0 st.

(** generateData.hpp:269-313.  NTRO and IXS are built by their constructors from values. *)
Definition ce_secondary (i : ceIn) (th : option (list tyr)) (st : jx) : outcome jx :=
  match ci_ptype i with
  | None => Ok st
  | Some p =>
      let ntype := mt_NTR p in
      ms <- deref_opt (ci_mtrh i) ;;
      let ntro := nt_of (map mt_NTR ms) in
      st <- mark 29 1 st ;; st <- append (ad_v p) st ;;
      st <- mark 30 1 st ;; st <- append (nt_v ntro) st ;;
      st <- mark 31 1 st ;;
      ps <- mapM (fun k => ce_particle i th (Z.to_nat k)) (seqZ 0 (Z.to_nat ntype)) ;;
      let '(xss', ixs) := fold_left (ce_add_particle (u32 (ntype * 10))) ps (snd st, []) in
      w <- xss_all (nt_v (ix_of ixs)) ;;
      Ok (fst st, firstn (length (snd st)) xss' ++ w ++ skipn (length (snd st)) xss')
  end.

(** generateData.hpp:36-342 *)
Definition ce_generateData bm (z a s : Z) (i : ceIn) : outcome tdata :=
  let ntr := mt_NTR (ci_mtr i) in
  t <- ce_generateTYR bm (ci_dlw i) ntr ;;
  th <- ce_generateTYRH bm (ci_dlwh i) ;;
  _ <- ce_verify bm i t th ;;
  st <- ce_conventional i t ;;
  st <- ce_ends bm i st ;;
  st <- ce_secondary i th st ;;
  nes <- (e <- esz_energies bm (ci_esz i) ;; Ok (len e)) ;;
  Ok (TData (zeros 16) (dzeros 16)
       ([len (snd st); u32 (u32 (z * 1000) + a); nes; ntr; ab_nr (ci_ang i); or0 mt_NTR (ci_mtrp i); or0 mt_NTR (ci_ptype i);
         or0 bd_NPCR (ci_bdd i); s; z; a] ++ zeros 5)
       (fst st) (snd st)).

(** * Code: finding the blocks *)

(** std::find_if with value >= start: int64_t against size_t compares as unsigned *)
Definition jxs_find (start : Z) (l : list Z) : option Z := find (fun value => start <=? u64 value) l.

(** block( index ), src/ACEtk/ContinuousEnergyTable/src/generateBlocks.hpp:1-83, as offsets in XSS *)
Definition ce_block bm (d : tdata) (ntype index : Z) : outcome (Z * Z) :=
  start <- (j <- d_JXS bm d index ;; Ok (u64 j)) ;;
  e <- (if negb (index =? 32) then
          if negb (start =? 0) then
            e <- (match jxs_find start (skipn (Z.to_nat index) (d_jxs d)) with
                  | Some x =>
                      j22 <- d_JXS bm d 22 ;;
                      let e := u64 (if negb (x =? j22) then x else x + 1) in
                      j21 <- d_JXS bm d 21 ;;
                      Ok (if e =? u64 j21 then u64 (j22 + 1) else e)
                  | None => Ok 0
                  end) ;;
            if index =? 11 then
              Ok (match jxs_find start (skipn 22 (d_jxs d)) with
                  | Some next => if u64 next <? e then u64 next else e
                  | None => e
                  end)
            else if index =? 27 then
              j22 <- d_JXS bm d 22 ;;
              let e := if e =? 0 then u64 (j22 + 1) else e in
              gpd <- d_JXS bm d 12 ;;
              Ok (if negb (gpd =? 0) then (if u64 gpd <? e then u64 gpd else e) else e)
            else Ok e
          else Ok 0
        else Ok (if negb (ntype =? 0) then u64 (start + u32 (ntype * 10) + 1) else 0)) ;;
  Ok (start - 1, if negb (e =? 0) then e - 1 else len (d_xss d)).

(** block( particle, index ), generateBlocks.hpp:85-105: the locators are the words of IXS, compared
    as doubles *)
Definition ce_pblock bm (d : tdata) (ixs : ntro) (particle index : Z) : outcome (Z * Z) :=
  start <- ix_LLOC bm ixs particle index ;;
  let v := nt_v ixs in
  ws <- read_range (buf v) (vbeg v + (particle - 1) * 10 + index) (vend v) ;;
  e <- (match find (fun x => SFleb (dbl start) x) ws with Some x => trunc_to_size x | None => Ok 0 end) ;;
  Ok (start - 1, if negb (e =? 0) then e - 1 else len (d_xss d)).

(** * Code: the table *)

Record particle := Particle { p_hpd : view; p_mtrh : arrayData; p_tyrh : tyr; p_sigh : blockWithLocators prefixedTabulated;
  p_andh : angularBlock; p_dlwh : dlwh; p_yh : view }.
(** The members, src/ACEtk/ContinuousEnergyTable.hpp:42-73; the vectors of secondary particle blocks
    are one list of records *)
Record ceTable := CeTable {
  ct_zaid : list ascii; ct_data : tdata;
  ct_esz : arrayData; ct_nu : option nu; ct_mtr : arrayData; ct_lqr : arrayData; ct_tyr : tyr;
  ct_sig : blockWithLocators view; ct_ang : angularBlock; ct_dlw : dlw;
  ct_gpd : option arrayData; ct_mtrp : option arrayData; ct_sigp : option (blockWithLocators photonProduction);
  ct_andp : option angularBlock; ct_dlwp : option dlwh; ct_yp : option view;
  ct_unr : option unr; ct_dnu : option nu; ct_bdd : option bdd; ct_dned : option dlwh;
  ct_ptype : option arrayData; ct_ntro : option ntro; ct_ixs : option ntro; ct_particles : list particle }.

(** HPD( index ), MTRH( index ), TYRH( index ), SIGH( index ), ANDH( index ), DLWH( index ), YH( index ),
    ContinuousEnergyTable.hpp:518-702: std::vector::operator[] of vectors of equal size, not checked *)
Definition ce_at (t : ceTable) (index : Z) : outcome particle := at_ (ct_particles t) index.

(** NES(), NTR(), NR(), NTRP(), NTYPE(), NPCR(), S(), Z(), A(): ContinuousEnergyTable.hpp:147-251 *)
Definition ce_N bm (d : tdata) (k : Z) : outcome Z := n <- d_NXS bm d k ;; Ok (u32 n).

(** A block in one piece, and one with locators in front: ( locators.first, iterators.first, iterators.second ) *)
Definition one {A} bm (d : tdata) (ntype index : Z) (make : view -> outcome A) : outcome A :=
  r <- ce_block bm d ntype index ;; make (tview d (fst r) (snd r)).
Definition two {A} bm (d : tdata) (ntype index : Z) (make : view -> Z -> outcome A) : outcome A :=
  l <- ce_block bm d ntype index ;;
  r <- ce_block bm d ntype (index + 1) ;;
  make (tview d (fst l) (snd r)) (fst r).
Definition opt_block {A} (present : bool) (o : outcome A) : outcome (option A) :=
  if present then x <- o ;; Ok (Some x) else Ok None.

(** generateBlocks.hpp:262-299 *)
Definition ce_particle_blocks bm (d : tdata) (ntro ixs : ntro) (k : Z) : outcome particle :=
  let one {A} (index : Z) (make : view -> outcome A) : outcome A :=
    r <- ce_pblock bm d ixs k index ;; make (tview d (fst r) (snd r)) in
  let two {A} (index : Z) (make : view -> Z -> outcome A) : outcome A :=
    l <- ce_pblock bm d ixs k index ;; r <- ce_pblock bm d ixs k (index + 1) ;; make (tview d (fst l) (snd r)) (fst r) in
  hpd <- one 1 (hpd_make bm) ;;
  np <- nt_NP bm ntro k ;;
  mtrh <- one 2 (fun v => mt_make v np) ;;
  tyrh <- one 3 (fun v => ty_make bm v np) ;;
  sigh <- two 4 (fun v x => bl_make bm (sigh_generateData bm) v x np true) ;;
  andh <- two 6 (fun v x => ab_make bm v x np false) ;;
  dlwh <- two 8 (fun v x => dh_make bm v x np (Some tyrh)) ;;
  yh <- one 10 (yp_make bm) ;;
  Ok (Particle hpd mtrh tyrh sigh andh dlwh yh).

(** generateBlocks.hpp:107-301 *)
Definition ce_generateBlocks bm (zaid : list ascii) (d : tdata) : outcome ceTable :=
  ntype <- ce_N bm d 7 ;;
  nes <- ce_N bm d 3 ;;
  esz <- one bm d ntype 1 (fun v => esz_make v nes) ;;
  j2 <- d_JXS bm d 2 ;;
  nu <- opt_block (0 <? j2) (one bm d ntype 2 (nu_make bm)) ;;
  ntr <- ce_N bm d 4 ;;
  mtr <- one bm d ntype 3 (fun v => mt_make v ntr) ;;
  lqr <- one bm d ntype 4 (fun v => lq_make v ntr) ;;
  tyr <- one bm d ntype 5 (fun v => ty_make bm v ntr) ;;
  sig <- two bm d ntype 6 (fun v x => bl_make bm (sig_generateData bm) v x ntr true) ;;
  nr <- ce_N bm d 5 ;;
  ang <- two bm d ntype 8 (fun v x => ab_make bm v x nr true) ;;
  dlw <- two bm d ntype 10 (fun v x => dl_make bm v x tyr nr) ;;
  ntrp <- ce_N bm d 6 ;;
  let photons := 0 <? ntrp in
  gpd <- opt_block photons (one bm d ntype 12 (fun v => lq_make v nes)) ;;
  mtrp <- opt_block photons (one bm d ntype 13 (fun v => mt_make v ntrp)) ;;
  sigp <- opt_block photons (two bm d ntype 14 (fun v x => bl_make bm (sigp_generateData bm) v x ntrp true)) ;;
  andp <- opt_block photons (two bm d ntype 16 (fun v x => ab_make bm v x ntrp false)) ;;
  dlwp <- opt_block photons (two bm d ntype 18 (fun v x => dh_make bm v x ntrp None)) ;;
  yp <- opt_block photons (one bm d ntype 20 (yp_make bm)) ;;
  j23 <- d_JXS bm d 23 ;;
  unr <- opt_block (0 <? j23) (one bm d ntype 23 (un_make bm)) ;;
  j24 <- d_JXS bm d 24 ;;
  dnu <- opt_block (0 <? j24) (one bm d ntype 24 (nu_make bm)) ;;
  npcr <- ce_N bm d 8 ;;
  bdd <- opt_block (0 <? npcr) (one bm d ntype 25 (fun v => bd_make bm v npcr)) ;;
  dned <- opt_block (0 <? npcr) (two bm d ntype 26 (fun v x => dh_make bm v x npcr None)) ;;
  if 0 <? ntype then
    ptype <- one bm d ntype 30 (fun v => mt_make v ntype) ;;
    ntro <- one bm d ntype 31 (fun v => nt_make v ntype) ;;
    ixs <- one bm d ntype 32 (fun v => ix_make v ntype) ;;
    ps <- mapM (ce_particle_blocks bm d ntro ixs) (seqZ 1 (Z.to_nat ntype)) ;;
    Ok (CeTable zaid d esz nu mtr lqr tyr sig ang dlw gpd mtrp sigp andp dlwp yp unr dnu bdd dned (Some ptype) (Some ntro) (Some ixs) ps)
  else
    Ok (CeTable zaid d esz nu mtr lqr tyr sig ang dlw gpd mtrp sigp andp dlwp yp unr dnu bdd dned None None None []).

(** Constructor from a table, ctor.hpp:6-23, with verifyType.hpp:1-13 *)
Definition ce_make bm (zaid : list ascii) (d : tdata) : outcome ceTable :=
  _ <- verifyType ["c"; "h"; "o"; "r"; "s"; "a"]%char zaid ;;
  d <- setSZA bm zaid d ;;
  ce_generateBlocks bm zaid d.
(** Constructor from blocks, ctor.hpp:117-154 *)
Definition ce_of bm (z a s : Z) (zaid : list ascii) (i : ceIn) : outcome ceTable :=
  d <- ce_generateData bm z a s i ;; ce_make bm zaid d.
