(** PhotoatomicTable. *)
From Coq Require Import ZArith Bool List Lia Ascii.
From Coq Require Import ZifyBool ZifyNat.
From Verif Require Import PropLemmasBasic.
From Verif Require Export PropsAtomic ThermalTable.
Import ListNotations.
Open Scope Z_scope.

(** * Writing *)

(** iz[i] = za[i]; aw[i] = awr[i] for each entry of za, src/ACEtk/PhotoatomicTable/src/generateData.hpp:29-34:
    reading or writing outside an array is undefined; the sizes of za and awr are compared later (56). *)
Fixpoint set_izaw (k : nat) (za : list Z) (awr : list double) (iz : list Z) (aw : list double) : outcome (list Z * list double) :=
  match za with
  | [] => Ok (iz, aw)
  | z :: r =>
      iz <- upd k (s32 z) iz ;;
      a <- nth_or_UB awr k ;;
      aw <- upd k a aw ;;
      set_izaw (S k) r awr iz aw
  end.

(** The arguments of the constructor, src/ctor.hpp:104-120 *)
Record paIn := PaIn { pa_z : Z; pa_za : list Z; pa_awr : list double; pa_eszg : arrayData; pa_jinc : jinc; pa_jcoh : jinc; pa_lhnm : arrayData;
  pa_jflo : option arrayData; pa_eps : option arrayData; pa_swd : option (blockWithLocators view); pa_subsh : option arrayData;
  pa_sphel : option arrayData; pa_xprob : option (blockWithLocators arrayData); pa_esze : option arrayData; pa_excit : option arrayData;
  pa_elas : option electronBlock; pa_eion : list electronBlock; pa_breme : option electronBlock; pa_breml : option arrayData; pa_selas : option arrayData }.

Definition has_value {A} (o : option A) : bool := match o with Some _ => true | None => false end.

(** for ( auto&& block : eion ), generateData.hpp:145-152; l and nssh are unsigned int *)
Fixpoint pa_write_eion (l nssh : Z) (blocks : list electronBlock) (xss : list double) : outcome (list double) :=
  match blocks with
  | [] => Ok xss
  | b :: r =>
      xss <- upd (Z.to_nat l) (dbl (eb_N b)) xss ;;
      xss <- upd (Z.to_nat (u32 (l + nssh))) (dbl (u64 (len xss + 1))) xss ;;
      xss <- upd (Z.to_nat (u32 (l + u32 (2 * nssh)))) (dbl (u64 (len xss + u32 (3 * eb_N b) + 1))) xss ;;
      words <- xss_all (eb_v b) ;;
      pa_write_eion (u32 (l + 1)) nssh r (xss ++ words)
  end.

(** generateData.hpp:122-163: the electron data *)
Definition pa_write_electrons (i : paIn) (nepr nssh na nb : Z) (st : jx) : outcome jx :=
  subsh <- deref_opt (pa_subsh i) ;;
  st <- mark 10 1 st ;; st <- mark 11 (1 + nssh) st ;; st <- mark 12 (1 + nssh + nssh) st ;;
  st <- mark 13 (1 + nssh + nssh + nssh) st ;; st <- mark 14 (1 + nssh + nssh + nssh + nssh) st ;;
  st <- append (ad_v subsh) st ;;
  sphel <- deref_opt (pa_sphel i) ;; st <- mark 15 1 st ;; st <- append (ad_v sphel) st ;;
  xprob <- deref_opt (pa_xprob i) ;; st <- mark 16 1 st ;; st <- mark 17 (1 + nssh) st ;; st <- append (bl_v xprob) st ;;
  esze <- deref_opt (pa_esze i) ;; st <- mark 18 1 st ;; st <- append (ad_v esze) st ;;
  excit <- deref_opt (pa_excit i) ;; st <- mark 19 1 st ;; st <- append (ad_v excit) st ;;
  elas <- deref_opt (pa_elas i) ;; st <- mark 20 1 st ;; st <- mark 21 (1 + u32 (3 * na)) st ;; st <- append (eb_v elas) st ;;
  st <- mark 22 1 st ;;
  xss <- pa_write_eion (u32 (len (snd st))) nssh (pa_eion i) (snd st ++ repeat (dbl 0) (Z.to_nat (u32 (3 * nssh)))) ;;
  let st := (fst st, xss) in
  breme <- deref_opt (pa_breme i) ;; st <- mark 23 1 st ;; st <- mark 24 (1 + u32 (3 * nb)) st ;; st <- append (eb_v breme) st ;;
  breml <- deref_opt (pa_breml i) ;; st <- mark 25 1 st ;; st <- append (ad_v breml) st ;;
  if nepr =? 3 then selas <- deref_opt (pa_selas i) ;; st <- mark 26 1 st ;; append (ad_v selas) st else Ok st.

(** The size values of generateData.hpp:37-50 *)
Record paN := PaN { n_nepr : Z; n_nes : Z; n_nsh : Z; n_nflo : Z; n_nssh : Z; n_ne : Z; n_nxl : Z; n_na : Z; n_nb : Z; n_nbl : Z; n_ninc : Z; n_ncoh : Z }.
Definition pa_sizes (i : paIn) : outcome paN :=
  let nepr := if has_value (pa_subsh i) then if has_value (pa_selas i) then 3 else 1 else 0 in
  let nsh := match pa_swd i with Some s => bl_n s | None => 0 end in
  let nflo := match pa_jflo i with Some s => jf_NFLO s | None => 0 end in
  nssh <- (if 0 <? nepr then s <- deref_opt (pa_subsh i) ;; Ok (ss_NSSH s) else Ok 0) ;;
  ne <- (if 0 <? nepr then s <- deref_opt (pa_esze i) ;; Ok (ez_NE s) else Ok 0) ;;
  nxl <- (if 0 <? nepr then s <- deref_opt (pa_excit i) ;; Ok (two_N s) else Ok 0) ;;
  na <- (if 0 <? nepr then s <- deref_opt (pa_elas i) ;; Ok (eb_N s) else Ok 0) ;;
  nb <- (if 0 <? nepr then s <- deref_opt (pa_breme i) ;; Ok (eb_N s) else Ok 0) ;;
  nbl <- (if 0 <? nepr then s <- deref_opt (pa_breml i) ;; Ok (two_N s) else Ok 0) ;;
  let ninc := if 1 <? nepr then ji_NM (pa_jinc i) else 0 in
  let ncoh := if 1 <? nepr then ji_NM (pa_jcoh i) else 0 in
  Ok (PaN nepr (eg_NES (pa_eszg i)) nsh nflo nssh ne nxl na nb nbl ninc ncoh).

(** generateData.hpp:56-93 *)
Definition pa_check (i : paIn) (n : paN) : outcome unit :=
  _ <- throw_if (negb (len (pa_za i) =? len (pa_awr i))) StdException ;;
  let sphelsize := match pa_sphel i with Some s => negb (n_nes n =? sp_NES s) | None => false end in
  _ <- throw_if (negb (n_nes n =? ad_n (pa_lhnm i)) || sphelsize) StdException ;;
  _ <- (if 0 <? n_nepr n then
          x <- deref_opt (pa_xprob i) ;; e <- deref_opt (pa_esze i) ;;
          throw_if (negb (n_nssh n =? bl_n x) || negb (n_nssh n =? ez_NSSH e) || negb (n_nssh n =? len (pa_eion i))) StdException
        else Ok tt) ;;
  if n_nepr n =? 3 then s <- deref_opt (pa_selas i) ;; throw_if (negb (n_ne n =? two_N s)) StdException else Ok tt.

(** generateData.hpp:1-197.  Sums of sizes are computed in Z (they are below 2^63). *)
Definition pa_generateData (i : paIn) : outcome tdata :=
  ia <- set_izaw 0 (pa_za i) (pa_awr i) (zeros 16) (dzeros 16) ;;
  n <- pa_sizes i ;;
  _ <- pa_check i n ;;
  jxs <- upd 0 1 (zeros 32) ;;
  st <- append (ad_v (pa_eszg i)) (jxs, []) ;;
  st <- mark 1 1 st ;; st <- append (ad_v (ji_a (pa_jinc i))) st ;;
  st <- mark 2 1 st ;; st <- append (ad_v (ji_a (pa_jcoh i))) st ;;
  st <- mark 3 1 st ;; st <- match pa_jflo i with Some o => append (ad_v o) st | None => Ok st end ;;
  st <- mark 4 1 st ;; st <- append (ad_v (pa_lhnm i)) st ;;
  st <- match pa_eps i with
        | Some o => st <- mark 5 1 st ;; st <- mark 6 (n_nsh n + 1) st ;; st <- mark 7 (u32 (2 * n_nsh n) + 1) st ;; append (ad_v o) st
        | None => Ok st
        end ;;
  st <- match pa_swd i with
        | Some o => st <- mark 8 1 st ;; st <- mark 9 (n_nsh n + 1) st ;; append (bl_v o) st
        | None => Ok st
        end ;;
  st <- (if 0 <? n_nepr n then pa_write_electrons i (n_nepr n) (n_nssh n) (n_na n) (n_nb n) st else Ok st) ;;
  Ok (TData (fst ia) (snd ia)
        [len (snd st); pa_z i; n_nes n; n_nflo n; n_nsh n; n_nepr n; n_nssh n; n_ne n; n_nxl n; n_na n; n_nb n; n_nbl n; n_ninc n; n_ncoh n; 0; 0]
        (fst st) (snd st)).

(** * Reading *)

(** The fields, src/ACEtk/PhotoatomicTable.hpp:36-53 *)
Record paTable := PaTable { pt_zaid : list ascii; pt_data : tdata; pt_eszg : arrayData; pt_jinc : jinc; pt_jcoh : jinc; pt_jflo : option arrayData;
  pt_lhnm : arrayData; pt_eps : option arrayData; pt_swd : option (blockWithLocators view); pt_subsh : option arrayData; pt_sphel : option arrayData;
  pt_xprob : option (blockWithLocators arrayData); pt_esze : option arrayData; pt_excit : option arrayData; pt_elas : option electronBlock;
  pt_eion : list electronBlock; pt_breme : option electronBlock; pt_breml : option arrayData; pt_selas : option arrayData }.

(** NXS accessors, PhotoatomicTable.hpp:124-291 *)
Definition pa_N bm d k : outcome Z := n <- d_NXS bm d k ;; Ok (u32 n).
Definition pa_length bm d := pa_N bm d 1.
Definition pa_Z bm d := pa_N bm d 2.
Definition pa_NES bm d := pa_N bm d 3.
Definition pa_NFLO bm d := pa_N bm d 4.
Definition pa_NSH bm d := pa_N bm d 5.
Definition pa_NEPR bm d := pa_N bm d 6.
Definition pa_NSSH bm d := pa_N bm d 7.
Definition pa_NE bm d := pa_N bm d 8.
Definition pa_NXL bm d := pa_N bm d 9.
Definition pa_NA bm d := pa_N bm d 10.
Definition pa_NB bm d := pa_N bm d 11.
Definition pa_NBL bm d := pa_N bm d 12.
Definition pa_NINC bm d := pa_N bm d 13.
Definition pa_NCOH bm d := pa_N bm d 14.

(** block( index ), src/generateBlocks.hpp:1-26 (also src/ACEtk/PhotonuclearTable/src/generateBlocks.hpp:1-26), as offsets in XSS *)
Definition pa_block bm (d : tdata) (index : Z) : outcome (Z * Z) :=
  start <- (j <- d_JXS bm d index ;; Ok (u64 j)) ;;
  let e := if negb (start =? 0) then match jxs_find start (skipn (Z.to_nat index) (d_jxs d)) with Some e => u64 e | None => 0 end else 0 in
  Ok (start - 1, if negb (e =? 0) then e - 1 else if negb (start =? 0) then len (d_xss d) else e - 1).

(** electroionisation_block( index ), generateBlocks.hpp:28-41: dereferencing outside XSS is undefined, as is the
    conversion of a double that does not fit; the number NB is converted to an unsigned int by the constructor of EION.
    A locator is truncated before 1 is subtracted, which makes no difference for whole numbers. *)
Definition pa_eion_block bm (d : tdata) (index : Z) : outcome (Z * Z * Z) :=
  j <- d_JXS bm d 23 ;;
  nssh <- pa_NSSH bm d ;;
  n <- (x <- deref (d_xss d) (j + index - 2) ;; trunc_to_u32 x) ;;
  s <- (x <- deref (d_xss d) (j + nssh + index - 2) ;; trunc_to_size x) ;;
  e <- (if negb (index =? nssh) then (x <- deref (d_xss d) (j + nssh + index - 1) ;; e <- trunc_to_size x ;; Ok (e - 1))
        else (j <- d_JXS bm d 24 ;; Ok (j - 1))) ;;
  Ok (s - 1, e, n).

(** generateBlocks.hpp:65-87 *)
Definition pa_basic bm (d : tdata) : outcome (arrayData * jinc * jinc * option arrayData * arrayData) :=
  b <- pa_block bm d 1 ;; nes <- pa_NES bm d ;; eszg <- eg_make (tview d (fst b) (snd b)) nes ;;
  b <- pa_block bm d 2 ;; jinc <- ji_make (tview d (fst b) (snd b)) ;;
  b <- pa_block bm d 3 ;; jcoh <- jc_make (tview d (fst b) (snd b)) ;;
  nflo <- pa_NFLO bm d ;;
  jflo <- (if 0 <? nflo then b <- pa_block bm d 4 ;; o <- jf_make (tview d (fst b) (snd b)) nflo ;; Ok (Some o) else Ok None) ;;
  b <- pa_block bm d 5 ;; lhnm <- lq_make (tview d (fst b) (snd b)) nes ;;
  Ok (eszg, jinc, jcoh, jflo, lhnm).

(** generateBlocks.hpp:89-102 *)
Definition pa_shells bm (d : tdata) : outcome (option (arrayData * blockWithLocators view)) :=
  nsh <- pa_NSH bm d ;;
  if 0 <? nsh then
    l <- pa_block bm d 6 ;; b <- pa_block bm d 8 ;; eps <- ep_make (tview d (fst l) (snd b)) nsh ;;
    l <- pa_block bm d 9 ;; b <- pa_block bm d 10 ;; swd <- bl_make bm (swd_gd bm) (tview d (fst l) (snd b)) (fst b) nsh true ;;
    Ok (Some (eps, swd))
  else Ok None.

(** The blocks read when NEPR > 0 *)
Record paElectrons := PaElectrons { pe_subsh : arrayData; pe_sphel : arrayData; pe_xprob : blockWithLocators arrayData; pe_esze : arrayData;
  pe_excit : arrayData; pe_elas : electronBlock; pe_eion : list electronBlock; pe_breme : electronBlock; pe_breml : arrayData; pe_selas : option arrayData }.
(** generateBlocks.hpp:104-142 *)
Definition pa_electrons bm (d : tdata) : outcome (option paElectrons) :=
  nepr <- pa_NEPR bm d ;;
  if 0 <? nepr then
    nssh <- pa_NSSH bm d ;; nes <- pa_NES bm d ;;
    b <- pa_block bm d 11 ;; c <- pa_block bm d 16 ;; subsh <- ss_make (tview d (fst b) (fst c)) nssh ;;
    sphel <- sp_make (tview d (fst c) (snd c)) nssh nes ;;
    b <- pa_block bm d 17 ;; c <- pa_block bm d 18 ;; xprob <- bl_make bm xp_gd (tview d (fst b) (snd c)) (fst c) nssh false ;;
    b <- pa_block bm d 19 ;; ne <- pa_NE bm d ;; esze <- ez_make (tview d (fst b) (snd b)) nssh ne ;;
    b <- pa_block bm d 20 ;; nxl <- pa_NXL bm d ;; excit <- two_make (tview d (fst b) (snd b)) nxl ;;
    b <- pa_block bm d 21 ;; c <- pa_block bm d 22 ;; na <- pa_NA bm d ;; elas <- eb_make bm (tview d (fst b) (snd c)) na ;;
    eion <- mapM (fun index => b <- pa_eion_block bm d index ;; let '(s, e, n) := b in eb_make bm (tview d s e) n) (seqZ 1 (Z.to_nat nssh)) ;;
    b <- pa_block bm d 24 ;; c <- pa_block bm d 25 ;; nb <- pa_NB bm d ;; breme <- eb_make bm (tview d (fst b) (snd c)) nb ;;
    b <- pa_block bm d 26 ;; nbl <- pa_NBL bm d ;; breml <- two_make (tview d (fst b) (snd b)) nbl ;;
    selas <- (if nepr =? 3 then b <- pa_block bm d 27 ;; o <- two_make (tview d (fst b) (snd b)) ne ;; Ok (Some o) else Ok None) ;;
    Ok (Some (PaElectrons subsh sphel xprob esze excit elas eion breme breml selas))
  else Ok None.

(** Constructor from a table, src/ctor.hpp:6-21 with verifyType.hpp:1-11 *)
Definition pa_make bm (zaid : list ascii) (d : tdata) : outcome paTable :=
  _ <- verifyType ["p"%char] zaid ;;
  b <- pa_basic bm d ;; let '(eszg, jinc, jcoh, jflo, lhnm) := b in
  s <- pa_shells bm d ;;
  e <- pa_electrons bm d ;;
  Ok (PaTable zaid d eszg jinc jcoh jflo lhnm (option_map fst s) (option_map snd s) (option_map pe_subsh e) (option_map pe_sphel e) (option_map pe_xprob e)
        (option_map pe_esze e) (option_map pe_excit e) (option_map pe_elas e) (match e with Some e => pe_eion e | None => [] end)
        (option_map pe_breme e) (option_map pe_breml e) (match e with Some e => pe_selas e | None => None end)).

(** Constructor from blocks, src/ctor.hpp:104-132 *)
Definition pa_of bm (zaid : list ascii) (i : paIn) : outcome paTable := d <- pa_generateData i ;; pa_make bm zaid d.

(** EION( index ), PhotoatomicTable.hpp:475-481 with verifySubshellIndex.hpp:1-12 *)
Definition pa_EION bm (t : paTable) (index : Z) : outcome electronBlock :=
  _ <- check bm (nssh <- pa_NSSH bm (pt_data t) ;; verifyIndex (u64 index) 1 nssh) ;;
  at_ (pt_eion t) index.
