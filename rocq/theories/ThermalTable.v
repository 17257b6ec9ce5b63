(** ThermalScatteringTable. *)
From Coq Require Import ZArith Bool List Lia Ascii.
From Coq Require Import ZifyBool ZifyNat.
From Verif Require Import PropLemmasBasic.
From Verif Require Export ThermalBlocks.
Import ListNotations.
Open Scope Z_scope.

(** * Writing *)

(** for ( i... ) iz[i] = za[i], src/ACEtk/ThermalScatteringTable/src/generateData.hpp:18-22: writing outside the
    array is undefined; unsigned int to int32_t *)
Fixpoint set_iz (k : nat) (za : list Z) (iz : list Z) : outcome (list Z) :=
  match za with [] => Ok iz | z :: r => iz <- upd k (s32 z) iz ;; set_iz (S k) r iz end.

(** The arguments of the constructor, src/ACEtk/ThermalScatteringTable/src/ctor.hpp:91-96 *)
Record thIn := ThIn { th_za : list Z; th_itie : columnData; th_itxe : itxe; th_itce : option columnData; th_itca : option arrayData;
  th_itcei : option columnData; th_itcai : option arrayData }.

(** generateData.hpp:29-52: IDPNC, NCL, NCLI; operator-> of an empty optional is undefined *)
Definition th_options (i : thIn) : outcome (Z * Z * Z) :=
  let ncl := match th_itca i with Some a => te_NCL a | None => -1 end in
  match th_itce i, th_itcei i with
  | Some _, Some _ => ai <- deref_opt (th_itcai i) ;; Ok (5, ncl, te_NCL ai)
  | Some _, None => Ok (4, ncl, 0)
  | None, Some _ => ai <- deref_opt (th_itcai i) ;; Ok (3, te_NCL ai, 0)
  | None, None => Ok (0, 0, 0)
  end.

(** jxs[k] = xss.size() + 1; jxs[k + 1] = jxs[k] + block.NE() + 1; insert the words of the block *)
Definition th_xs bm (k : nat) (c : columnData) (st : jx) : outcome jx :=
  st <- mark k 1 st ;;
  ne <- tc_NE bm c ;;
  st <- mark (S k) (ne + 2) st ;;
  append (cd_v c) st.

(** generateData.hpp:1-118.  Sums of locators and sizes are computed in Z (they are below 2^63). *)
Definition th_generateData bm (i : thIn) : outcome tdata :=
  iz <- set_iz 0 (th_za i) (zeros 16) ;;
  ne <- (n <- tc_NE bm (th_itie i) ;; Ok (u32 n)) ;;
  opt <- th_options i ;;
  let '(idpnc, ncl, ncli) := opt in
  _ <- throw_if (negb (ne =? it_ne (th_itxe i))) StdException ;;
  jxs <- upd 0 1 (zeros 32) ;;
  jxs <- upd 1 (1 + ne + 1) jxs ;;
  st <- append (cd_v (th_itie i)) (jxs, []) ;;
  st <- mark 2 1 st ;; st <- append (it_v (th_itxe i)) st ;;
  st <- (if idpnc =? 3 then
           c <- deref_opt (th_itcei i) ;; a <- deref_opt (th_itcai i) ;;
           st <- th_xs bm 3 c st ;; st <- mark 5 1 st ;; append (ad_v a) st
         else Ok st) ;;
  st <- (if (idpnc =? 4) || (idpnc =? 5) then
           c <- deref_opt (th_itce i) ;;
           st <- th_xs bm 3 c st ;;
           match th_itca i with
           | Some a => st <- (if vempty (ad_v a) then j <- upd 5 0 (fst st) ;; Ok (j, snd st) else mark 5 1 st) ;; append (ad_v a) st
           | None => Ok st
           end
         else Ok st) ;;
  st <- (if idpnc =? 5 then
           c <- deref_opt (th_itcei i) ;; a <- deref_opt (th_itcai i) ;;
           st <- th_xs bm 6 c st ;; st <- mark 8 1 st ;; append (ad_v a) st
         else Ok st) ;;
  nieb <- (if it_ifeng (th_itxe i) <? 2 then it_NIEB bm (th_itxe i) 1 else Ok 0) ;;
  let nxs := [len (snd st); 3; s64 (it_NIL (th_itxe i)); s64 nieb; idpnc; ncl; it_ifeng (th_itxe i); ncli; 0; 0; 0; 0; 0; 0; 0; 0] in
  Ok (TData iz (dzeros 16) nxs (fst st) (snd st)).

(** * Reading *)

(** The fields, src/ACEtk/ThermalScatteringTable.hpp:25-30 *)
Record thTable := ThTable { tt_zaid : list ascii; tt_data : tdata; tt_itie : columnData; tt_itxe : itxe; tt_itce : option columnData;
  tt_itca : option arrayData; tt_itcei : option columnData; tt_itcai : option arrayData }.

(** NXS accessors, ThermalScatteringTable.hpp:100-184 *)
Definition th_length bm d : outcome Z := n <- d_NXS bm d 1 ;; Ok (u32 n).
Definition th_IDPNI bm d : outcome Z := n <- d_NXS bm d 2 ;; Ok (u32 n).
Definition th_NIL bm d : outcome Z := n <- d_NXS bm d 3 ;; Ok (u32 n).
Definition th_NIEB bm d : outcome Z := n <- d_NXS bm d 4 ;; Ok (u32 n).
Definition th_IDPNC bm d : outcome Z := n <- d_NXS bm d 5 ;; Ok (u32 n).
Definition th_NCL bm d : outcome Z := n <- d_NXS bm d 6 ;; Ok (s32 n).
Definition th_IFENG bm d : outcome Z := n <- d_NXS bm d 7 ;; Ok (u32 n).
Definition th_NCLI bm d : outcome Z := n <- d_NXS bm d 8 ;; Ok (s32 n).

(** block( index ), src/ACEtk/ThermalScatteringTable/src/generateBlocks.hpp:1-28, as offsets in XSS *)
Definition th_block bm (d : tdata) (index : Z) : outcome (Z * Z) :=
  start <- (j <- d_JXS bm d index ;; Ok (u64 j)) ;;
  let from := if (index =? 1) || (index =? 4) || (index =? 7) then index + 1 else index in
  let e := if negb (start =? 0) then match jxs_find start (skipn (Z.to_nat from) (d_jxs d)) with Some e => u64 e | None => 0 end else 0 in
  Ok (start - 1, if negb (e =? 0) then e - 1 else if negb (start =? 0) then len (d_xss d) else e - 1).

(** NCL() + 1 and NCLI() + 1: signed overflow is undefined *)
Definition plus1 (n : Z) : outcome Z := if in_int (n + 1) then Ok (n + 1) else UB.

(** generateBlocks.hpp:41-56 *)
Definition th_inelastic bm (d : tdata) : outcome (columnData * itxe) :=
  present <- (j <- d_JXS bm d 1 ;; Ok (0 <? j)) ;;
  b1 <- th_block bm d 1 ;;
  itie <- tc_make (if present : bool then tview d (fst b1) (snd b1) else tview d 0 0) ;;
  b3 <- th_block bm d 3 ;;
  ifeng <- (if present : bool then th_IFENG bm d else Ok 0) ;;
  nieb <- (if present : bool then if ifeng <? 2 then th_NIEB bm d else Ok 0 else Ok 0) ;;
  nc <- (if present : bool then n <- th_NIL bm d ;; Ok (if ifeng <? 2 then u32 (n + 1) else u32 (n - 1)) else Ok 0) ;;
  ne <- (if present : bool then tc_NE bm itie else Ok 0) ;;
  locb <- (if present : bool then j <- d_JXS bm d 3 ;; Ok (u64 j) else Ok 1) ;;
  x <- it_make bm ifeng nieb nc ne locb (if present : bool then tview d (fst b3) (snd b3) else tview d 0 0) ;;
  Ok (itie, x).

(** generateBlocks.hpp:58-72 *)
Definition th_coherent bm (d : tdata) : outcome (option columnData * option arrayData) :=
  idpnc <- th_IDPNC bm d ;;
  if 3 <? idpnc then
    b <- th_block bm d 4 ;;
    c <- tc_make (tview d (fst b) (snd b)) ;;
    n <- (ncl <- th_NCL bm d ;; plus1 ncl) ;;
    if negb (n =? 0) then
      b <- th_block bm d 6 ;;
      ne <- tc_NE bm c ;;
      a <- te_make (tview d (fst b) (snd b)) ne (u64 n) ;;
      Ok (Some c, Some a)
    else Ok (Some c, None)
  else Ok (None, None).

(** generateBlocks.hpp:74-87 *)
Definition th_incoherent bm (d : tdata) : outcome (option columnData * option arrayData) :=
  idpnc <- th_IDPNC bm d ;;
  if (idpnc =? 3) || (idpnc =? 5) then
    b <- (if idpnc =? 3 then th_block bm d 4 else th_block bm d 7) ;;
    c <- tc_make (tview d (fst b) (snd b)) ;;
    b <- (if idpnc =? 3 then th_block bm d 6 else th_block bm d 9) ;;
    ne <- tc_NE bm c ;;
    n <- (if idpnc =? 3 then ncl <- th_NCL bm d ;; plus1 ncl else ncl <- th_NCLI bm d ;; plus1 ncl) ;;
    a <- te_make (tview d (fst b) (snd b)) ne (u64 n) ;;
    Ok (Some c, Some a)
  else Ok (None, None).

(** Constructor from a table, src/ctor.hpp:6-21 with verifyType.hpp:1-11 *)
Definition th_make bm (zaid : list ascii) (d : tdata) : outcome thTable :=
  _ <- verifyType ["t"%char] zaid ;;
  i <- th_inelastic bm d ;;
  c <- th_coherent bm d ;;
  n <- th_incoherent bm d ;;
  Ok (ThTable zaid d (fst i) (snd i) (fst c) (snd c) (fst n) (snd n)).

(** Constructor from blocks, src/ctor.hpp:91-102 *)
Definition th_of bm (zaid : list ascii) (i : thIn) : outcome thTable :=
  d <- th_generateData bm i ;; th_make bm zaid d.

(** * Blocks from values *)

Definition tc_layout (e xs : list double) : list double := dbl (len e) :: e ++ xs.
Definition tc_shows bm (e xs : list double) (o : columnData) : Prop :=
  tc_NE bm o = Ok (len e) /\ tc_energies bm o = Ok e /\ tc_crossSections bm o = Ok xs.
Lemma cd_make_inv v nc o : cd_make v nc = Ok o -> o = ColumnData v nc.
Proof.
  unfold cd_make. destruct (if vempty v then _ else _); cbn [bind]; try discriminate. destruct (cd_verifySize _ _ _); cbn [bind]; try discriminate.
  intros E. apply Ok_inj in E. symmetry. exact E.
Qed.
Lemma tc_supplies bm e xs : len xs = len e -> len (tc_layout e xs) < max_words -> supplies (tc_of e xs) cd_v tc_make (tc_layout e xs) (tc_shows bm e xs).
Proof.
  intros L B. assert (G : cd_generateXSS [e; xs] = Ok (tc_layout e xs)).
  { rewrite cd_generateXSS_ok by (unfold all_len; repeat constructor; assumption). unfold cd_layout, tc_layout. cbn [concat]. rewrite app_nil_r. reflexivity. }
  assert (R : forall v, content v (tc_layout e xs) -> exists o, tc_make v = Ok o /\ cd_v o = v /\ tc_shows bm e xs o).
  { intros v C. pose proof (cd_round_trip bm v [e; xs] _ G (content_has _ _ C)) as (o & E & N & Col & _).
    exists o. split; [exact E|]. split; [rewrite (cd_make_inv _ _ _ E); reflexivity|].
    split; [apply (N e); left; reflexivity|]. split; [apply (Col 0%nat e eq_refl)|apply (Col 1%nat xs eq_refl)]. }
  split.
  - exists (ColumnData (own (tc_layout e xs)) 2). pose proof (own_content _ B) as C. destruct (R _ C) as (o & E & V & S).
    unfold tc_of, cd_of_columns. rewrite G. cbn [bind].
    pose proof (cd_make_inv _ _ _ E) as Eo.
    rewrite <- Eo. split; [f_equal; rewrite Eo; reflexivity|]. split; [rewrite V; exact C|exact S].
  - intros v C. destruct (R v C) as (o & E & _ & S). exists o. split; assumption.
Qed.

Definition te_shows bm (nc : Z) (cs : list (list double)) (o : arrayData) : Prop :=
  te_NE o = len cs /\ te_NC o = nc /\ te_NCL o = nc - 1 /\ forall k x, nth_error cs k = Some x -> te_cosines bm o (Z.of_nat k + 1) = Ok x.
Lemma te_supplies bm nc cs : Forall (fun c => len c = nc) cs -> cs <> [] -> nc < 2 ^ 31 -> len cs < 2 ^ 31 -> len (concat cs) < max_words ->
  supplies (te_of cs) ad_v (fun v => te_make v (len cs) nc) (concat cs) (te_shows bm nc cs).
Proof.
  intros F N Bn Bm B.
  assert (Hn : 0 <= nc). { destruct cs as [|c cs]; [congruence|]. inversion F; subst. apply len_nonneg. }
  assert (Hin : forall a, In a cs -> len a = nc) by (rewrite Forall_forall in F; exact F).
  assert (R : forall v, content v (concat cs) -> exists o, te_make v (len cs) nc = Ok o /\ ad_v o = v /\ te_shows bm nc cs o).
  { intros v C. pose proof (len_nonneg cs). unfold te_make. rewrite !u32_small by lia.
    destruct (ad_round_trip bm v cs (concat cs) nc) as (o & E & En & Em & D & _); [apply ad_generateXSS_ok with (n := nc); exact F|apply content_has; exact C|exact Hin|lia|lia|].
    exists o. split; [exact E|]. split; [unfold ad_make in E; destruct (ad_verifySize _ _ _); cbn [bind] in E; try discriminate; injection E as <-; reflexivity|].
    unfold te_shows, te_NE, te_NC, te_NCL, te_cosines. rewrite Em, En, s32_small by lia. repeat split; try reflexivity. exact D. }
  split.
  - destruct (ad_of_round_trip cs nc Hin N ltac:(lia) ltac:(lia) B) as (v & C & E & Em).
    eexists. split; [exact E|]. cbn [ad_v]. split; [exact C|]. destruct (R v C) as (o & Eo & _ & S). unfold te_make in Eo. pose proof (len_nonneg cs).
    rewrite !u32_small in Eo by lia. rewrite Em in Eo. injection Eo as <-. exact S.
  - intros v C. destruct (R v C) as (o & E & _ & S). exists o. split; assumption.
Qed.

(** * Tables from values *)

(** What a user supplies *)
Record thV := ThV { tv_za : list Z; tv_e : list double; tv_xs : list double; tv_ifeng : Z; tv_nc : Z; tv_cs : list (list cos_in);
  tv_ce : option (list double * list double); tv_ca : option (list (list double));
  tv_cei : option (list double * list double); tv_cai : option (list (list double)) }.

Definition ca_nc (cs : list (list double)) : Z := first_count cs.
Definition elastic_valid (c : list double * list double) : Prop := len (snd c) = len (fst c).
Definition cosines_valid (c : list double * list double) (a : list (list double)) : Prop :=
  a <> [] /\ len a = len (fst c) /\ Forall (fun x => len x = ca_nc a) a.

(** The ITXE block starts after the cross sections *)
Definition tv_locb (v : thV) : Z := 2 * len (tv_e v) + 2.
Definition opt_words {A} (f : A -> list double) (o : option A) : list double := match o with Some x => f x | None => [] end.
Definition xs_words (c : list double * list double) := tc_layout (fst c) (snd c).
Definition tv_words (v : thV) : list double :=
  tc_layout (tv_e v) (tv_xs v) ++ it_layout (tv_ifeng v) (tv_locb v) (tv_cs v)
  ++ opt_words xs_words (tv_ce v) ++ opt_words (@concat double) (tv_ca v) ++ opt_words xs_words (tv_cei v) ++ opt_words (@concat double) (tv_cai v).

Record th_valid (v : thV) : Prop := {
  vv_za : len (tv_za v) <= 16 /\ Forall (fun z => 0 <= z < 2 ^ 31) (tv_za v);
  vv_xs : len (tv_xs v) = len (tv_e v);
  vv_ne : len (tv_cs v) = len (tv_e v);
  vv_it : it_valid (tv_ifeng v) (tv_nc v) (tv_cs v);
  vv_ce : match tv_ce v with Some c => elastic_valid c | None => True end;
  vv_ca : match tv_ca v with Some a => exists c, tv_ce v = Some c /\ cosines_valid c a /\ 0 < ca_nc a | None => True end;
  vv_cei : match tv_cei v, tv_cai v with Some c, Some a => elastic_valid c /\ cosines_valid c a | None, None => True | _, _ => False end;
  vv_size : tv_locb v + 2 * len (tv_cs v) + len (concat (concat (cs_words (tv_cs v)))) + len (tv_words v) < 2 ^ 31 }.

(** The constructor calls *)
Definition optM {A B} (f : A -> outcome B) (o : option A) : outcome (option B) := match o with Some x => y <- f x ;; Ok (Some y) | None => Ok None end.
Definition th_build bm (zaid : list ascii) (v : thV) : outcome thTable :=
  itie <- tc_of (tv_e v) (tv_xs v) ;;
  itxe <- it_built bm (tv_ifeng v) (tv_locb v) (tv_cs v) ;;
  ce <- optM (fun c => tc_of (fst c) (snd c)) (tv_ce v) ;;
  ca <- optM te_of (tv_ca v) ;;
  cei <- optM (fun c => tc_of (fst c) (snd c)) (tv_cei v) ;;
  cai <- optM te_of (tv_cai v) ;;
  th_of bm zaid (ThIn (tv_za v) itie itxe ce ca cei cai).

Definition opt_shows {A B} (S : A -> B -> Prop) (x : option A) (o : option B) : Prop :=
  match x, o with None, None => True | Some x, Some o => S x o | _, _ => False end.
Definition idpnc (v : thV) : Z := match tv_ce v, tv_cei v with Some _, Some _ => 5 | Some _, None => 4 | None, Some _ => 3 | None, None => 0 end.
Definition ncl_of (a : option (list (list double))) : Z := match a with Some a => ca_nc a - 1 | None => -1 end.

Record th_returns bm (zaid : list ascii) (v : thV) (t : thTable) : Prop := {
  tr_zaid : tt_zaid t = zaid;
  tr_itie : tc_shows bm (tv_e v) (tv_xs v) (tt_itie t);
  tr_itxe : it_shows bm (tv_ifeng v) (tv_nc v) (tv_cs v) (tt_itxe t);
  tr_itce : opt_shows (fun c => tc_shows bm (fst c) (snd c)) (tv_ce v) (tt_itce t);
  tr_itca : opt_shows (fun a => te_shows bm (ca_nc a) a) (tv_ca v) (tt_itca t);
  tr_itcei : opt_shows (fun c => tc_shows bm (fst c) (snd c)) (tv_cei v) (tt_itcei t);
  tr_itcai : opt_shows (fun a => te_shows bm (ca_nc a) a) (tv_cai v) (tt_itcai t);
  tr_za : forall k z, nth_error (tv_za v) k = Some z -> d_IZ bm (tt_data t) (Z.of_nat k + 1) = Ok z;
  tr_xss : d_xss (tt_data t) = tv_words v;
  tr_wf : data_wf (tt_data t);
  tr_length : th_length bm (tt_data t) = Ok (len (tv_words v));
  tr_idpni : th_IDPNI bm (tt_data t) = Ok 3;
  tr_ifeng : th_IFENG bm (tt_data t) = Ok (tv_ifeng v);
  tr_nieb : th_NIEB bm (tt_data t) = Ok (if tv_ifeng v <? 2 then first_count (tv_cs v) else 0);
  tr_nil : th_NIL bm (tt_data t) = Ok (if tv_ifeng v <? 2 then u32 (tv_nc v - 1) else tv_nc v + 1);
  tr_idpnc : th_IDPNC bm (tt_data t) = Ok (idpnc v);
  tr_ncl : th_NCL bm (tt_data t) = Ok (match tv_ce v, tv_cei v with Some _, _ => ncl_of (tv_ca v) | None, Some _ => ncl_of (tv_cai v) | None, None => 0 end);
  tr_ncli : th_NCLI bm (tt_data t) = Ok (match tv_ce v, tv_cei v with Some _, Some _ => ncl_of (tv_cai v) | _, _ => 0 end) }.

(** The locators: JXS(1), JXS(2), ... of the blocks and of the second arrays of the cross section blocks *)
Definition th_jxs (v : thV) : list Z :=
  let ie := len (tv_e v) in
  let l1 := len (tc_layout (tv_e v) (tv_xs v)) in
  let l2 := l1 + len (it_layout (tv_ifeng v) (tv_locb v) (tv_cs v)) in
  let l3 := l2 + len (opt_words xs_words (tv_ce v)) in
  let l4 := l3 + len (opt_words (@concat double) (tv_ca v)) in
  let l5 := l4 + len (opt_words xs_words (tv_cei v)) in
  let ne (c : option (list double * list double)) := match c with Some c => len (fst c) | None => 0 end in
  match tv_ce v, tv_cei v with
  | None, None => [1; ie + 2; l1 + 1]
  | None, Some _ => [1; ie + 2; l1 + 1; l2 + 1; l2 + 1 + ne (tv_cei v) + 1; l5 + 1]
  | Some _, None => [1; ie + 2; l1 + 1; l2 + 1; l2 + 1 + ne (tv_ce v) + 1; match tv_ca v with Some _ => l3 + 1 | None => 0 end]
  | Some _, Some _ => [1; ie + 2; l1 + 1; l2 + 1; l2 + 1 + ne (tv_ce v) + 1; match tv_ca v with Some _ => l3 + 1 | None => 0 end;
                       l4 + 1; l4 + 1 + ne (tv_cei v) + 1; l5 + 1]
  end.

(** The NXS array: the length, the inelastic and the elastic parameters *)
Definition th_nxs (v : thV) : list Z :=
  [len (tv_words v); 3; (if tv_ifeng v <? 2 then tv_nc v - 1 else tv_nc v + 1); (if tv_ifeng v <? 2 then first_count (tv_cs v) else 0); idpnc v;
   match tv_ce v, tv_cei v with Some _, _ => ncl_of (tv_ca v) | None, Some _ => ncl_of (tv_cai v) | None, None => 0 end; tv_ifeng v;
   match tv_ce v, tv_cei v with Some _, Some _ => ncl_of (tv_cai v) | _, _ => 0 end; 0; 0; 0; 0; 0; 0; 0; 0].

(** * Proof *)

Lemma set_iz_spec : forall za k iz, Forall (fun z => 0 <= z < 2 ^ 31) za -> (k + length za <= length iz)%nat ->
  exists iz', set_iz k za iz = Ok iz' /\ length iz' = length iz
    /\ (forall j z, nth_error za j = Some z -> nth_error iz' (k + j) = Some z) /\ (forall j, (j < k)%nat -> nth_error iz' j = nth_error iz j).
Proof.
  induction za as [|z za IH]; intros k iz F L; cbn [set_iz].
  - exists iz. split; [reflexivity|]. split; [reflexivity|]. split; [intros [] ?; discriminate|reflexivity].
  - inversion F; subst. cbn [length] in L. rewrite s32_small by lia.
    destruct (upd_nth z k iz ltac:(lia)) as (iz1 & E & L1 & N1 & N2). rewrite E. cbn [bind].
    destruct (IH (S k) iz1 H2 ltac:(lia)) as (iz' & E' & L' & M1 & M2). exists iz'. split; [exact E'|]. split; [congruence|]. split.
    + intros [|j] w Hw; cbn [nth_error] in Hw.
      * injection Hw as <-. rewrite Nat.add_0_r, M2 by lia. exact N1.
      * replace (k + S j)%nat with (S k + j)%nat by lia. apply M1. exact Hw.
    + intros j Hj. rewrite M2 by lia. apply N2. lia.
Qed.

Lemma th_block_some bm d jxs k start e from : d_jxs d = jxs -> nth_error jxs k = Some start -> length jxs = 32%nat -> 0 < start < 2 ^ 64 ->
  from = (if (Z.of_nat k + 1 =? 1) || (Z.of_nat k + 1 =? 4) || (Z.of_nat k + 1 =? 7) then S (S k) else S k) ->
  jxs_find start (skipn from jxs) = Some e -> 0 < e < 2 ^ 64 -> th_block bm d (Z.of_nat k + 1) = Ok (start - 1, e - 1).
Proof.
  intros D N L B -> J Be. unfold th_block, d_JXS. rewrite D. rewrite (fetch_in bm jxs k start N) by (unfold len; rewrite L; reflexivity). cbn [bind].
  rewrite u64_small by lia. replace (start =? 0) with false by lia. cbn [negb].
  match type of J with jxs_find _ (skipn ?a _) = _ => match goal with |- context [skipn ?b jxs] => replace b with a end end.
  2:{ destruct (_ || _); lia. }
  rewrite J. rewrite u64_small by lia. replace (e =? 0) with false by lia. reflexivity.
Qed.
Lemma th_block_none bm d jxs k start from : d_jxs d = jxs -> nth_error jxs k = Some start -> length jxs = 32%nat -> 0 < start < 2 ^ 64 ->
  from = (if (Z.of_nat k + 1 =? 1) || (Z.of_nat k + 1 =? 4) || (Z.of_nat k + 1 =? 7) then S (S k) else S k) ->
  jxs_find start (skipn from jxs) = None -> th_block bm d (Z.of_nat k + 1) = Ok (start - 1, len (d_xss d)).
Proof.
  intros D N L B -> J. unfold th_block, d_JXS. rewrite D. rewrite (fetch_in bm jxs k start N) by (unfold len; rewrite L; reflexivity). cbn [bind].
  rewrite u64_small by lia. replace (start =? 0) with false by lia. cbn [negb].
  match type of J with jxs_find _ (skipn ?a _) = _ => match goal with |- context [skipn ?b jxs] => replace b with a end end.
  2:{ destruct (_ || _); lia. }
  rewrite J. reflexivity.
Qed.

Ltac jfs := repeat (rewrite jf_skip by lia); first [apply jf_nil | apply jf_hit; lia].

Lemma optM_supplies {A B} (f : A -> outcome B) vw (make : A -> view -> outcome B) (w : A -> list double) S o :
  (forall x, o = Some x -> supplies (f x) vw (make x) (w x) (S x)) ->
  exists o', optM f o = Ok o' /\ match o, o' with Some x, Some y => content (vw y) (w x) /\ S x y /\ readable (make x) (w x) (S x) | None, None => True | _, _ => False end.
Proof.
  intros H. destruct o as [x|]; cbn [optM]; [|exists None; split; [reflexivity|exact I]].
  destruct (H x eq_refl) as [(y & E & C & Sy) R]. rewrite E. cbn [bind]. exists (Some y). split; [reflexivity|]. exact (conj C (conj Sy R)).
Qed.

Lemma th_inelastic_ok bm d w1 w2 rest ne ifeng nieb nc S1 S2 e3 : d_xss d = w1 ++ w2 ++ rest -> len (d_xss d) < max_words ->
  d_JXS bm d 1 = Ok 1 -> th_block bm d 1 = Ok (0, len w1) -> d_JXS bm d 3 = Ok (len w1 + 1) -> th_block bm d 3 = Ok (len w1, e3) -> e3 = len w1 + len w2 ->
  th_IFENG bm d = Ok ifeng -> (ifeng < 2 -> th_NIEB bm d = Ok nieb) -> th_NIL bm d = Ok (if ifeng <? 2 then u32 (nc - 1) else nc + 1) -> 0 <= nc < 2 ^ 31 ->
  readable tc_make w1 (fun o => tc_NE bm o = Ok ne /\ S1 o) -> readable (it_make bm ifeng (if ifeng <? 2 then nieb else 0) nc ne (len w1 + 1)) w2 S2 ->
  exists a b, th_inelastic bm d = Ok (a, b) /\ S1 a /\ S2 b.
Proof.
  intros X B J1 B1 J3 B3 -> Ei En El Hnc R1 R2. unfold th_inelastic. rewrite J1. cbn [bind]. change (0 <? 1) with true. cbn iota. rewrite B1. cbn [bind fst snd].
  assert (C1 : content (tview d 0 (len w1)) w1). { unfold tview. rewrite X. apply (piece_content [] w1 (w2 ++ rest)); [cbn [app]; rewrite <- X; exact B|reflexivity|rewrite len_nil; lia]. }
  assert (C2 : content (tview d (len w1) (len w1 + len w2)) w2). { unfold tview. rewrite X. apply (piece_content w1 w2 rest); [rewrite <- X; exact B|reflexivity|lia]. }
  destruct (R1 _ C1) as (a & Ea & Na & Sa). rewrite Ea. cbn [bind]. rewrite B3. cbn [bind fst snd]. rewrite Ei. cbn [bind].
  assert (N : (if ifeng <? 2 then th_NIEB bm d else Ok 0) = Ok (if ifeng <? 2 then nieb else 0)). { destruct (ifeng <? 2) eqn:E; [apply En; lia|reflexivity]. }
  rewrite N. cbn [bind]. rewrite El. cbn [bind]. rewrite Na. cbn [bind]. rewrite J3. cbn [bind].
  assert (Lw : len w1 < 2 ^ 31). { rewrite X in B. unfold max_words in B. rewrite !len_app in B. pose proof (len_nonneg w2). pose proof (len_nonneg rest). lia. }
  rewrite (u64_small (len w1 + 1)) by (pose proof (len_nonneg w1); lia).
  assert (Hn : (if ifeng <? 2 then u32 ((if ifeng <? 2 then u32 (nc - 1) else nc + 1) + 1) else u32 ((if ifeng <? 2 then u32 (nc - 1) else nc + 1) - 1)) = nc).
  { destruct (ifeng <? 2); [|rewrite u32_small; lia]. unfold u32. rewrite Zplus_mod_idemp_l. rewrite Z.mod_small; lia. }
  rewrite Hn. destruct (R2 _ C2) as (b & Eb & Sb). rewrite Eb. cbn [bind]. exists a, b. auto.
Qed.

(** A pair of elastic blocks *)
Lemma th_pair_ok bm d pre w3 w4 rest n ne Sc Sa nb : d_xss d = pre ++ w3 ++ w4 ++ rest -> len (d_xss d) < max_words -> nb = n -> 0 <= n < 2 ^ 32 ->
  readable tc_make w3 (fun o => tc_NE bm o = Ok ne /\ Sc o) -> readable (fun v => te_make v ne n) w4 Sa ->
  exists c a, tc_make (tview d (len pre) (len pre + len w3)) = Ok c /\ tc_NE bm c = Ok ne /\ te_make (tview d (len pre + len w3) (len pre + len w3 + len w4)) ne nb = Ok a /\ Sc c /\ Sa a.
Proof.
  intros X B -> Hn R1 R2.
  assert (C1 : content (tview d (len pre) (len pre + len w3)) w3). { unfold tview. rewrite X. apply (piece_content pre w3 (w4 ++ rest)); [rewrite <- X; exact B|reflexivity|lia]. }
  assert (C2 : content (tview d (len pre + len w3) (len pre + len w3 + len w4)) w4).
  { unfold tview. rewrite X. rewrite (app_assoc pre). apply (piece_content (pre ++ w3) w4 rest); [rewrite <- app_assoc, <- X; exact B|rewrite len_app; reflexivity|rewrite len_app; lia]. }
  destruct (R1 _ C1) as (c & Ec & Nc & Sc'). destruct (R2 _ C2) as (a & Ea & Sa'). exists c, a. auto.
Qed.

Lemma mark_eq k n st j : upd k (len (snd st) + n) (fst st) = Ok j -> mark k n st = Ok (j, snd st).
Proof. intros H. unfold mark. rewrite H. reflexivity. Qed.
Lemma append_eq v st w : content v w -> append v st = Ok (fst st, snd st ++ w).
Proof. intros C. unfold append. rewrite (xss_all_content _ _ C). reflexivity. Qed.
Lemma th_xs_eq bm k c st ne w j1 j2 : content (cd_v c) w -> tc_NE bm c = Ok ne -> upd k (len (snd st) + 1) (fst st) = Ok j1 -> upd (S k) (len (snd st) + (ne + 2)) j1 = Ok j2 ->
  th_xs bm k c st = Ok (j2, snd st ++ w).
Proof.
  intros C N U1 U2. unfold th_xs. rewrite (mark_eq _ _ _ _ U1). cbn [bind]. rewrite N. cbn [bind]. rewrite (mark_eq (S k) _ (j1, snd st) j2 U2). cbn [bind].
  apply (append_eq _ (j2, snd st) _ C).
Qed.

Lemma vempty_content v w : content v w -> vempty v = (len w =? 0).
Proof. intros [_ H]. unfold vempty. lia. Qed.

Ltac fsteps := cbn [fst snd bind zeros repeat upd Z.of_nat].

Lemma concat_nonempty c a : cosines_valid c a -> 0 < ca_nc a -> (len (concat a) =? 0) = false.
Proof. intros (N & _ & F) H. destruct a as [|x a]; [congruence|]. cbn [concat]. cbn [ca_nc first_count] in *. rewrite len_app. unfold ca_nc in H. cbn [first_count] in H. pose proof (len_nonneg (concat a)). lia. Qed.

Lemma TData_eq iz aw n n' j j' x x' : n = n' -> j = j' -> x = x' -> @Ok tdata (TData iz aw n j x) = Ok (TData iz aw n' j' x').
Proof. intros -> -> ->. reflexivity. Qed.

(** The words written, with their locators and sizes, for every combination of blocks *)
Lemma th_generateData_ok bm i v iz : th_valid v -> set_iz 0 (th_za i) (zeros 16) = Ok iz ->
  content (cd_v (th_itie i)) (tc_layout (tv_e v) (tv_xs v)) -> tc_shows bm (tv_e v) (tv_xs v) (th_itie i) ->
  content (it_v (th_itxe i)) (it_layout (tv_ifeng v) (tv_locb v) (tv_cs v)) -> it_shows bm (tv_ifeng v) (tv_nc v) (tv_cs v) (th_itxe i) ->
  opt_shows (fun c o => content (cd_v o) (xs_words c) /\ tc_shows bm (fst c) (snd c) o) (tv_ce v) (th_itce i) ->
  opt_shows (fun a o => content (ad_v o) (concat a) /\ te_shows bm (ca_nc a) a o) (tv_ca v) (th_itca i) ->
  opt_shows (fun c o => content (cd_v o) (xs_words c) /\ tc_shows bm (fst c) (snd c) o) (tv_cei v) (th_itcei i) ->
  opt_shows (fun a o => content (ad_v o) (concat a) /\ te_shows bm (ca_nc a) a o) (tv_cai v) (th_itcai i) ->
  th_generateData bm i = Ok (TData iz (dzeros 16)
    [len (tv_words v); 3; (if tv_ifeng v <? 2 then tv_nc v - 1 else tv_nc v + 1); (if tv_ifeng v <? 2 then first_count (tv_cs v) else 0); idpnc v;
     match tv_ce v, tv_cei v with Some _, _ => ncl_of (tv_ca v) | None, Some _ => ncl_of (tv_cai v) | None, None => 0 end; tv_ifeng v;
     match tv_ce v, tv_cei v with Some _, Some _ => ncl_of (tv_cai v) | _, _ => 0 end; 0; 0; 0; 0; 0; 0; 0; 0]
    (th_jxs v ++ zeros (32 - length (th_jxs v))) (tv_words v)).
Proof.
  intros V Hiz C1 (N1 & _) C2 (If & Inc & Ine & Inieb & _) H3 H4 H5 H6.
  pose proof (vv_it _ V) as Vit. pose proof (it_sizes _ _ _ Vit) as (Hnc & Hf & Hne & Hcc & _). pose proof (vv_size _ V) as Hs.
  pose proof (vv_ne _ V) as Hen. pose proof (len_nonneg (tv_e v)) as Hle. pose proof (len_nonneg (concat (concat (cs_words (tv_cs v))))) as Hlw. unfold tv_locb in Hs.
  pose proof (len_nonneg (tv_words v)) as Hltw.
  assert (Hf2 : first_count (tv_cs v) < 2 ^ 31).
  { destruct Vit as (_ & _ & (d0 & c0 & r0 & Ecs) & _). rewrite Ecs in Hcc. inversion Hcc as [|? ? Hx _]; subst. rewrite <- Ecs in Hx. rewrite Ecs. cbn [first_count]. lia. }
  assert (Hnc2 : tv_nc v < 2 ^ 31).
  { destruct Vit as (_ & F & (d0 & c0 & r0 & Ecs) & _). rewrite Ecs in Hs, F. inversion F as [|? ? F1 _]; subst. inversion F1 as [|? ? [_ Ln] _]; subst.
    rewrite <- Ln. unfold cs_words in Hs. cbn [map concat] in Hs. rewrite concat_app in Hs. cbn [concat] in Hs. repeat rewrite len_app in Hs.
    assert (len (cn_mu d0) <= len (cn_words d0)) by (destruct d0; cbn [cn_mu cn_words]; rewrite ?len_cons; lia). nonneg. lia. }
  unfold th_generateData. rewrite Hiz. cbn [bind]. rewrite N1. cbn [bind]. rewrite (u32_small (len (tv_e v))) by lia.
  assert (Hnieb : (if it_ifeng (th_itxe i) <? 2 then it_NIEB bm (th_itxe i) 1 else Ok 0) = Ok (if tv_ifeng v <? 2 then first_count (tv_cs v) else 0)).
  { rewrite If. destruct (tv_ifeng v <? 2); [|reflexivity]. destruct Vit as (_ & _ & (d0 & c0 & r0 & Ecs) & _).
    pose proof (Inieb 0%nat (d0 :: c0)) as I0. rewrite Ecs in I0. specialize (I0 eq_refl). rewrite Ecs. exact I0. }
  assert (Hnil : s64 (it_NIL (th_itxe i)) = (if tv_ifeng v <? 2 then tv_nc v - 1 else tv_nc v + 1)).
  { unfold it_NIL. rewrite If, Inc. destruct (tv_ifeng v <? 2); [|rewrite u64_small, s64_small by lia; reflexivity].
    destruct (Z.eq_dec (tv_nc v) 0) as [->|]; [reflexivity|]. rewrite u64_small, s64_small by lia. reflexivity. }
  assert (Hnieb2 : s64 (if tv_ifeng v <? 2 then first_count (tv_cs v) else 0) = (if tv_ifeng v <? 2 then first_count (tv_cs v) else 0)) by (destruct (tv_ifeng v <? 2); apply s64_small; lia).
  pose proof (vv_ca _ V) as Vca. pose proof (vv_cei _ V) as Vcei. clear V Vit Hcc Inieb Hs.
  destruct (tv_ce v) as [ce|] eqn:Ece, (th_itce i) as [oce|] eqn:Oce; cbn [opt_shows] in H3; try contradiction;
  destruct (tv_cei v) as [cei|] eqn:Ecei, (th_itcei i) as [ocei|] eqn:Ocei; cbn [opt_shows] in H5; try contradiction;
  destruct (tv_cai v) as [cai|] eqn:Ecai, (th_itcai i) as [ocai|] eqn:Ocai; cbn [opt_shows] in H6; try contradiction;
  destruct (tv_ca v) as [ca|] eqn:Eca, (th_itca i) as [oca|] eqn:Oca; cbn [opt_shows] in H4; try contradiction;
  try (destruct Vca as (? & Vcax & ? & ?); first [discriminate Vcax|injection Vcax as <-]);
  try destruct H3 as (C3 & N3 & _); try destruct H4 as (C4 & N4a & N4b & N4 & _); try destruct H5 as (C5 & N5 & _); try destruct H6 as (C6 & N6a & N6b & N6 & _);
  unfold th_options; rewrite ?Oce, ?Ocei, ?Ocai, ?Oca; cbn [deref_opt bind]; rewrite Ine, Hen, Z.eqb_refl; cbn [negb throw_if bind];
  change (3 =? 3) with true; change (4 =? 3) with false; change (5 =? 3) with false; change (0 =? 3) with false; cbn [orb];
  change (3 =? 4) with false; change (4 =? 4) with true; change (5 =? 4) with false; change (0 =? 4) with false;
  change (3 =? 5) with false; change (4 =? 5) with false; change (5 =? 5) with true; change (0 =? 5) with false; cbn [orb deref_opt bind];
  unfold th_xs, mark, append, zeros; cbn [repeat];
  rewrite ?N3, ?N5, ?(xss_all_content _ _ C1), ?(xss_all_content _ _ C2); try rewrite (xss_all_content _ _ C3); try rewrite (xss_all_content _ _ C4); try rewrite (xss_all_content _ _ C5); try rewrite (xss_all_content _ _ C6);
  try (rewrite (vempty_content _ _ C4), (concat_nonempty ce ca) by assumption);
  cbn [bind fst snd upd]; rewrite Hnieb; cbn [bind]; rewrite Hnil, Hnieb2, If;
  unfold tv_words, th_jxs, idpnc, ncl_of; rewrite ?Ece, ?Ecei, ?Ecai, ?Eca, ?N4, ?N6; cbn [opt_words length Nat.sub repeat app]; rewrite ?app_nil_r, <- ?app_assoc;
  (apply TData_eq;
  [apply f_equal2; [repeat rewrite ?len_app, ?len_nil; lia|reflexivity]
  |repeat (apply f_equal2; [repeat rewrite ?len_app, ?len_nil; lia|]); reflexivity
  |reflexivity]).
Qed.

Lemma content_layout e xs o w : content (cd_v o) w -> w = tc_layout e xs -> 1 <= len w. 
Proof. intros _ ->. unfold tc_layout. rewrite len_cons. pose proof (len_nonneg (e ++ xs)). lia. Qed.

Ltac nx bm k := match goal with |- context [fetch bm ?l (Z.of_nat k + 1)] => rewrite (fetch_in bm l k _ eq_refl ltac:(vm_compute; reflexivity)) end.

Lemma plus1_ok n : 0 <= n < 2 ^ 31 -> plus1 (n - 1) = Ok n.
Proof. intros H. unfold plus1, in_int. replace (n - 1 + 1) with n by lia. destruct (_ && _) eqn:E; [reflexivity|lia]. Qed.

Lemma th_coherent_ok bm d id pre w3 w4 rest n ne Sc Sa : d_xss d = pre ++ w3 ++ w4 ++ rest -> len (d_xss d) < 2 ^ 31 -> th_IDPNC bm d = Ok id -> 3 < id ->
  th_NCL bm d = Ok (n - 1) -> 0 < n < 2 ^ 31 -> th_block bm d 4 = Ok (len pre, len pre + len w3) -> th_block bm d 6 = Ok (len pre + len w3, len pre + len w3 + len w4) ->
  readable tc_make w3 (fun o => tc_NE bm o = Ok ne /\ Sc o) -> readable (fun v => te_make v ne n) w4 Sa ->
  exists c a, th_coherent bm d = Ok (Some c, Some a) /\ Sc c /\ Sa a.
Proof.
  intros X B I L N Hn B4 B6 R3 R4. unfold th_coherent. rewrite I. cbn [bind]. replace (3 <? id) with true by lia. rewrite B4. cbn [bind fst snd].
  destruct (th_pair_ok bm d pre w3 w4 rest n ne Sc Sa (u64 n) X B ltac:(apply u64_small; lia) ltac:(lia) R3 R4) as (c & a & Ec & Nc & Ea & S1 & S2).
  rewrite Ec. cbn [bind]. rewrite N. cbn [bind]. rewrite plus1_ok by lia. cbn [bind]. replace (n =? 0) with false by lia. cbn [negb]. rewrite B6. cbn [bind fst snd]. rewrite Nc. cbn [bind]. rewrite Ea. cbn [bind].
  exists c, a. auto.
Qed.
Lemma th_coherent_ok0 bm d id pre w3 rest Sc : d_xss d = pre ++ w3 ++ rest -> len (d_xss d) < 2 ^ 31 -> th_IDPNC bm d = Ok id -> 3 < id ->
  th_NCL bm d = Ok (- 1) -> th_block bm d 4 = Ok (len pre, len pre + len w3) -> readable tc_make w3 Sc -> exists c, th_coherent bm d = Ok (Some c, None) /\ Sc c.
Proof.
  intros X B I L N B4 R3. unfold th_coherent. rewrite I. cbn [bind]. replace (3 <? id) with true by lia. rewrite B4. cbn [bind fst snd].
  assert (C1 : content (tview d (len pre) (len pre + len w3)) w3). { unfold tview. rewrite X. apply (piece_content pre w3 rest); [rewrite <- X; exact B|reflexivity|lia]. }
  destruct (R3 _ C1) as (c & Ec & S). rewrite Ec. cbn [bind]. rewrite N. cbn [bind]. change (plus1 (- (1))) with (@Ok Z 0). cbn [bind]. exists c. auto.
Qed.
Lemma th_incoherent_ok bm d id pre w3 w4 n ne Sc Sa : d_xss d = pre ++ w3 ++ w4 -> len (d_xss d) < 2 ^ 31 -> th_IDPNC bm d = Ok id -> id = 3 \/ id = 5 ->
  (if id =? 3 then th_NCL bm d else th_NCLI bm d) = Ok (n - 1) -> 0 <= n < 2 ^ 31 -> (if id =? 3 then th_block bm d 4 else th_block bm d 7) = Ok (len pre, len pre + len w3) ->
  (if id =? 3 then th_block bm d 6 else th_block bm d 9) = Ok (len pre + len w3, len pre + len w3 + len w4) ->
  readable tc_make w3 (fun o => tc_NE bm o = Ok ne /\ Sc o) -> readable (fun v => te_make v ne n) w4 Sa ->
  exists c a, th_incoherent bm d = Ok (Some c, Some a) /\ Sc c /\ Sa a.
Proof.
  intros X B I L N Hn B4 B6 R3 R4. unfold th_incoherent. rewrite I. cbn [bind]. replace ((id =? 3) || (id =? 5)) with true by lia. rewrite B4. cbn [bind fst snd].
  rewrite <- (app_nil_r w4) in X.
  destruct (th_pair_ok bm d pre w3 w4 [] n ne Sc Sa (u64 n) X B ltac:(apply u64_small; lia) ltac:(lia) R3 R4) as (c & a & Ec & Nc & Ea & S1 & S2).
  rewrite Ec. cbn [bind]. rewrite B6. cbn [bind fst snd]. rewrite Nc. cbn [bind].
  assert (P : (if id =? 3 then ncl <- th_NCL bm d ;; plus1 ncl else ncl <- th_NCLI bm d ;; plus1 ncl) = Ok n).
  { destruct (id =? 3); rewrite N; cbn [bind]; apply plus1_ok; lia. }
  rewrite P. cbn [bind]. rewrite Ea. cbn [bind]. exists c, a. auto.
Qed.

Ltac blk_some k st e fr := match goal with Jd : d_jxs ?d = _ |- th_block ?bm _ _ = _ =>
  rewrite (th_block_some bm d _ k st e fr Jd eq_refl eq_refl); [do 2 f_equal; rewrite ?len_app; lia|lia|reflexivity|cbn [skipn]; jfs|lia] end.
Ltac blk_none k st fr := match goal with Jd : d_jxs ?d = _ |- th_block ?bm _ _ = _ =>
  rewrite (th_block_none bm d _ k st fr Jd eq_refl eq_refl); [do 2 f_equal; rewrite ?len_app; lia|lia|reflexivity|cbn [skipn]; jfs] end.

(** * The blocks of the table handed to the constructor again *)

(** ITIE(), ITXE(), ..., ThermalScatteringTable.hpp:186-228, in the order of the constructor's arguments *)
Definition th_own (za : list Z) (t : thTable) : thIn := ThIn za (tt_itie t) (tt_itxe t) (tt_itce t) (tt_itca t) (tt_itcei t) (tt_itcai t).

Lemma reads_content {A} (make : view -> outcome A) vw w (S : A -> Prop) : (forall v o, make v = Ok o -> vw o = v) -> readable make w S -> readable make w (fun o => S o /\ content (vw o) w).
Proof. intros H R v C. destruct (R v C) as (o & E & So). exists o. rewrite (H v o E). auto. Qed.
Lemma tc_make_view v o : tc_make v = Ok o -> cd_v o = v.
Proof. unfold tc_make, cd_make. intros H. repeat (match type of H with bind ?x _ = _ => destruct x; cbn [bind] in H; [|discriminate H|discriminate H] end). apply Ok_inj in H. subst o. reflexivity. Qed.
Lemma te_make_view v a b o : te_make v a b = Ok o -> ad_v o = v.
Proof. unfold te_make, ad_make. intros H. repeat (match type of H with bind ?x _ = _ => destruct x; cbn [bind] in H; [|discriminate H|discriminate H] end). apply Ok_inj in H. subst o. reflexivity. Qed.
Lemma it_make_view bm a b c d e v o : it_make bm a b c d e v = Ok o -> it_v o = v.
Proof. unfold it_make, it_generateBlocks. intros H. repeat (match type of H with bind ?x _ = _ => destruct x; cbn [bind] in H; [|discriminate H|discriminate H] end). apply Ok_inj in H. subst o. reflexivity. Qed.

Lemma th_reads bm v d (Pt : list double -> list double -> columnData -> Prop) (Pi : Z -> Z -> list (list cos_in) -> itxe -> Prop) (Pe : Z -> list (list double) -> arrayData -> Prop) :
  (forall e xs o, Pt e xs o -> tc_NE bm o = Ok (len e)) -> th_valid v -> d_xss d = tv_words v -> len (tv_words v) < 2 ^ 31 -> d_jxs d = th_jxs v ++ zeros (32 - length (th_jxs v)) ->
  0 <= tv_nc v < 2 ^ 31 -> match tv_ca v with Some a => 0 <= ca_nc a < 2 ^ 31 | None => True end -> match tv_cai v with Some a => 0 <= ca_nc a < 2 ^ 31 | None => True end ->
  tv_locb v = len (tc_layout (tv_e v) (tv_xs v)) + 1 -> 1 <= len (it_layout (tv_ifeng v) (tv_locb v) (tv_cs v)) ->
  th_NIL bm d = Ok (if tv_ifeng v <? 2 then u32 (tv_nc v - 1) else tv_nc v + 1) -> th_NIEB bm d = Ok (if tv_ifeng v <? 2 then first_count (tv_cs v) else 0) ->
  th_IDPNC bm d = Ok (idpnc v) -> th_IFENG bm d = Ok (tv_ifeng v) ->
  th_NCL bm d = Ok (match tv_ce v, tv_cei v with Some _, _ => ncl_of (tv_ca v) | None, Some _ => ncl_of (tv_cai v) | None, None => 0 end) ->
  th_NCLI bm d = Ok (match tv_ce v, tv_cei v with Some _, Some _ => ncl_of (tv_cai v) | _, _ => 0 end) ->
  readable tc_make (tc_layout (tv_e v) (tv_xs v)) (Pt (tv_e v) (tv_xs v)) ->
  readable (it_make bm (tv_ifeng v) (if tv_ifeng v <? 2 then first_count (tv_cs v) else 0) (tv_nc v) (len (tv_cs v)) (tv_locb v)) (it_layout (tv_ifeng v) (tv_locb v) (tv_cs v)) (Pi (tv_ifeng v) (tv_nc v) (tv_cs v)) ->
  (forall c, tv_ce v = Some c -> readable tc_make (xs_words c) (Pt (fst c) (snd c))) ->
  (forall a, tv_ca v = Some a -> readable (fun v => te_make v (len a) (ca_nc a)) (concat a) (Pe (ca_nc a) a)) ->
  (forall c, tv_cei v = Some c -> readable tc_make (xs_words c) (Pt (fst c) (snd c))) ->
  (forall a, tv_cai v = Some a -> readable (fun v => te_make v (len a) (ca_nc a)) (concat a) (Pe (ca_nc a) a)) ->
  exists i c n, th_inelastic bm d = Ok i /\ th_coherent bm d = Ok c /\ th_incoherent bm d = Ok n
    /\ Pt (tv_e v) (tv_xs v) (fst i) /\ Pi (tv_ifeng v) (tv_nc v) (tv_cs v) (snd i)
    /\ opt_shows (fun c => Pt (fst c) (snd c)) (tv_ce v) (fst c) /\ opt_shows (fun a => Pe (ca_nc a) a) (tv_ca v) (snd c)
    /\ opt_shows (fun c => Pt (fst c) (snd c)) (tv_cei v) (fst n) /\ opt_shows (fun a => Pe (ca_nc a) a) (tv_cai v) (snd n).
Proof.
  intros PN V Xd Hw Jd Hnc Bca Bcai Hlocb L2 N3 N4 N5 N7 N6 N8 R1 R2 R3 R4 R5 R6.
  assert (Rt : forall e xs, readable tc_make (tc_layout e xs) (Pt e xs) -> readable tc_make (tc_layout e xs) (fun o => tc_NE bm o = Ok (len e) /\ Pt e xs o)).
  { intros e xs R w C. destruct (R w C) as (o & E & S). exists o. split; [exact E|]. split; [exact (PN _ _ _ S)|exact S]. }
  rewrite (vv_ne _ V) in R2. apply Rt in R1. pose proof (vv_ce _ V) as Vce. pose proof (vv_ca _ V) as Vca. pose proof (vv_cei _ V) as Vcei. clear V.
  assert (L1 : 1 <= len (tc_layout (tv_e v) (tv_xs v))) by (unfold tc_layout; rewrite len_cons; pose proof (len_nonneg (tv_e v ++ tv_xs v)); lia).
  rewrite <- Xd in Hw. unfold tv_words in Xd. unfold th_jxs in Jd. rewrite Hlocb in *.
  set (w1 := tc_layout (tv_e v) (tv_xs v)) in *. set (w2 := it_layout (tv_ifeng v) (len w1 + 1) (tv_cs v)) in *.
  assert (Lx : len (d_xss d) = len w1 + (len w2 + (len (opt_words xs_words (tv_ce v)) + (len (opt_words (@concat double) (tv_ca v)) + (len (opt_words xs_words (tv_cei v)) + len (opt_words (@concat double) (tv_cai v))))))).
  { rewrite Xd. repeat rewrite len_app. reflexivity. }
  assert (Lc : forall c, 1 <= len (xs_words c)) by (intros c; unfold xs_words, tc_layout; rewrite len_cons; pose proof (len_nonneg (fst c ++ snd c)); lia).
  pose proof (len_nonneg (opt_words xs_words (tv_ce v))) as P3. pose proof (len_nonneg (opt_words (@concat double) (tv_ca v))) as P4.
  pose proof (len_nonneg (opt_words xs_words (tv_cei v))) as P5. pose proof (len_nonneg (opt_words (@concat double) (tv_cai v))) as P6.
  unfold idpnc in N5.
  destruct (tv_ce v) as [ce|] eqn:Ece; [pose proof (Rt _ _ (R3 _ eq_refl)) as R3'; change (tc_layout (fst ce) (snd ce)) with (xs_words ce) in R3'; pose proof (Lc ce)|];
  (destruct (tv_cei v) as [cei|] eqn:Ecei; [pose proof (Rt _ _ (R5 _ eq_refl)) as R5'; change (tc_layout (fst cei) (snd cei)) with (xs_words cei) in R5'; pose proof (Lc cei)|]);
  (destruct (tv_cai v) as [cai|] eqn:Ecai; [pose proof (R6 _ eq_refl) as R6'|]); try contradiction;
  (destruct (tv_ca v) as [ca|] eqn:Eca; [pose proof (R4 _ eq_refl) as R4'; destruct Vca as (? & Vcax & (Na & La & Fa) & Hca); try discriminate Vcax; injection Vcax as <-|]);
  try (destruct Vcei as (Vei & (Nai & Lai & Fai)));
  clear R3 R4 R5 R6 Rt Lc; cbn [opt_words] in *; change (len (@nil double)) with 0 in Lx; cbn [app] in Xd; rewrite ?app_nil_r in Xd; cbn [length Nat.sub zeros repeat app] in Jd.
  all: assert (J1 : d_JXS bm d 1 = Ok 1) by (unfold d_JXS; rewrite Jd; apply (fetch_in bm _ 0); reflexivity);
       assert (J3 : d_JXS bm d 3 = Ok (len w1 + 1)) by (unfold d_JXS; rewrite Jd; apply (fetch_in bm _ 2); reflexivity);
       assert (B1 : th_block bm d 1 = Ok (0, len w1)) by
         (change 1 with (Z.of_nat 0 + 1) at 1; rewrite (th_block_some bm d _ 0 1 (len w1 + 1) 2 Jd eq_refl eq_refl); [do 2 f_equal; lia|lia|reflexivity|cbn [skipn]; jfs|lia]).
  all: match type of Xd with _ = _ ++ _ ++ ?r => pose (rest := r) | _ => pose (rest := @nil double) end.
  all: assert (B3 : th_block bm d 3 = Ok (len w1, len w1 + len w2)) by
         (change 3 with (Z.of_nat 2 + 1); first
           [rewrite (th_block_some bm d _ 2 (len w1 + 1) (len w1 + len w2 + 1) 3 Jd eq_refl eq_refl); [do 2 f_equal; lia|lia|reflexivity|cbn [skipn]; jfs|lia]
           |rewrite (th_block_none bm d _ 2 (len w1 + 1) 3 Jd eq_refl eq_refl); [do 2 f_equal; lia|lia|reflexivity|cbn [skipn]; jfs]]).
  all: assert (Xd' : d_xss d = w1 ++ w2 ++ rest) by (subst rest; rewrite ?app_nil_r; exact Xd).
  all: assert (N4' : tv_ifeng v < 2 -> th_NIEB bm d = Ok (first_count (tv_cs v))) by (intros; rewrite N4; replace (tv_ifeng v <? 2) with true by lia; reflexivity).
  all: assert (R2' : readable (it_make bm (tv_ifeng v) (if tv_ifeng v <? 2 then first_count (tv_cs v) else 0) (tv_nc v) (len (tv_e v)) (len w1 + 1)) w2 (Pi (tv_ifeng v) (tv_nc v) (tv_cs v))) by exact R2.
  all: assert (Q : exists a b, th_inelastic bm d = Ok (a, b) /\ Pt (tv_e v) (tv_xs v) a /\ Pi (tv_ifeng v) (tv_nc v) (tv_cs v) b)
    by (eapply (th_inelastic_ok bm d w1 w2 rest (len (tv_e v)) (tv_ifeng v) (first_count (tv_cs v)) (tv_nc v)); [exact Xd'|exact Hw|exact J1|exact B1|exact J3|exact B3|reflexivity|exact N7|exact N4'|exact N3|exact Hnc|exact R1|exact R2']).
  all: destruct Q as (a & b & Ei & Sa & Sb).
  all: unfold ncl_of in N6, N8.
  (* coherent and incoherent *)
  - destruct (th_coherent_ok bm d 5 (w1 ++ w2) (xs_words ce) (concat ca) (xs_words cei ++ concat cai) (ca_nc ca) (len (fst ce)) (Pt (fst ce) (snd ce)) (Pe (ca_nc ca) ca))
      as (c & x & E1 & E2 & E3); [rewrite Xd, <- !app_assoc; reflexivity|exact Hw|exact N5|lia|exact N6|lia| | |exact R3'|rewrite <- La; exact R4'|].
    { change 4 with (Z.of_nat 3 + 1). blk_some 3%nat (len w1 + len w2 + 1) (len w1 + len w2 + len (xs_words ce) + 1) 5%nat. }
    { change 6 with (Z.of_nat 5 + 1). blk_some 5%nat (len w1 + len w2 + len (xs_words ce) + 1) (len w1 + len w2 + len (xs_words ce) + len (concat ca) + 1) 6%nat. }
    destruct (th_incoherent_ok bm d 5 (w1 ++ w2 ++ xs_words ce ++ concat ca) (xs_words cei) (concat cai) (ca_nc cai) (len (fst cei)) (Pt (fst cei) (snd cei)) (Pe (ca_nc cai) cai))
      as (c' & x' & E4 & E5 & E6); [rewrite Xd, <- !app_assoc; reflexivity|exact Hw|exact N5|lia|exact N8|lia| | |exact R5'|rewrite <- Lai; exact R6'|].
    { change (5 =? 3) with false. cbn iota. change 7 with (Z.of_nat 6 + 1). blk_some 6%nat (len w1 + len w2 + len (xs_words ce) + len (concat ca) + 1) (len w1 + len w2 + len (xs_words ce) + len (concat ca) + len (xs_words cei) + 1) 8%nat. }
    { change (5 =? 3) with false. cbn iota. change 9 with (Z.of_nat 8 + 1). blk_none 8%nat (len w1 + len w2 + len (xs_words ce) + len (concat ca) + len (xs_words cei) + 1) 9%nat. }
    exists (a, b), (Some c, Some x), (Some c', Some x'). cbn [fst snd opt_shows]. auto 12.
  - destruct (th_coherent_ok0 bm d 5 (w1 ++ w2) (xs_words ce) (xs_words cei ++ concat cai) (fun o => tc_NE bm o = Ok (len (fst ce)) /\ Pt (fst ce) (snd ce) o))
      as (c & E1 & _ & E2); [rewrite Xd, <- !app_assoc; reflexivity|exact Hw|exact N5|lia|exact N6| |exact R3'|].
    { change 4 with (Z.of_nat 3 + 1). blk_some 3%nat (len w1 + len w2 + 1) (len w1 + len w2 + len (xs_words ce) + 0 + 1) 5%nat. }
    destruct (th_incoherent_ok bm d 5 (w1 ++ w2 ++ xs_words ce) (xs_words cei) (concat cai) (ca_nc cai) (len (fst cei)) (Pt (fst cei) (snd cei)) (Pe (ca_nc cai) cai))
      as (c' & x' & E4 & E5 & E6); [rewrite Xd, <- !app_assoc; reflexivity|exact Hw|exact N5|lia|exact N8|lia| | |exact R5'|rewrite <- Lai; exact R6'|].
    { change (5 =? 3) with false. cbn iota. change 7 with (Z.of_nat 6 + 1). blk_some 6%nat (len w1 + len w2 + len (xs_words ce) + 0 + 1) (len w1 + len w2 + len (xs_words ce) + 0 + len (xs_words cei) + 1) 8%nat. }
    { change (5 =? 3) with false. cbn iota. change 9 with (Z.of_nat 8 + 1). blk_none 8%nat (len w1 + len w2 + len (xs_words ce) + 0 + len (xs_words cei) + 1) 9%nat. }
    exists (a, b), (Some c, None), (Some c', Some x'). cbn [fst snd opt_shows]. auto 12.
  - destruct (th_coherent_ok bm d 4 (w1 ++ w2) (xs_words ce) (concat ca) [] (ca_nc ca) (len (fst ce)) (Pt (fst ce) (snd ce)) (Pe (ca_nc ca) ca))
      as (c & x & E1 & E2 & E3); [rewrite Xd, <- !app_assoc, ?app_nil_r; reflexivity|exact Hw|exact N5|lia|exact N6|lia| | |exact R3'|rewrite <- La; exact R4'|].
    { change 4 with (Z.of_nat 3 + 1). blk_some 3%nat (len w1 + len w2 + 1) (len w1 + len w2 + len (xs_words ce) + 1) 5%nat. }
    { change 6 with (Z.of_nat 5 + 1). blk_none 5%nat (len w1 + len w2 + len (xs_words ce) + 1) 6%nat. }
    exists (a, b), (Some c, Some x), (None, None). split; [exact Ei|]. split; [exact E1|]. split; [unfold th_incoherent; rewrite N5; reflexivity|]. cbn [fst snd opt_shows]. auto 12.
  - destruct (th_coherent_ok0 bm d 4 (w1 ++ w2) (xs_words ce) [] (fun o => tc_NE bm o = Ok (len (fst ce)) /\ Pt (fst ce) (snd ce) o))
      as (c & E1 & _ & E2); [rewrite Xd, <- !app_assoc, ?app_nil_r; reflexivity|exact Hw|exact N5|lia|exact N6| |exact R3'|].
    { change 4 with (Z.of_nat 3 + 1). blk_none 3%nat (len w1 + len w2 + 1) 5%nat. }
    exists (a, b), (Some c, None), (None, None). split; [exact Ei|]. split; [exact E1|]. split; [unfold th_incoherent; rewrite N5; reflexivity|]. cbn [fst snd opt_shows]. auto 12.
  - destruct (th_incoherent_ok bm d 3 (w1 ++ w2) (xs_words cei) (concat cai) (ca_nc cai) (len (fst cei)) (Pt (fst cei) (snd cei)) (Pe (ca_nc cai) cai))
      as (c' & x' & E4 & E5 & E6); [rewrite Xd, <- !app_assoc; reflexivity|exact Hw|exact N5|lia|exact N6|lia| | |exact R5'|rewrite <- Lai; exact R6'|].
    { change (3 =? 3) with true. cbn iota. change 4 with (Z.of_nat 3 + 1). blk_some 3%nat (len w1 + len w2 + 1) (len w1 + len w2 + 0 + 0 + len (xs_words cei) + 1) 5%nat. }
    { change (3 =? 3) with true. cbn iota. change 6 with (Z.of_nat 5 + 1). blk_none 5%nat (len w1 + len w2 + 0 + 0 + len (xs_words cei) + 1) 6%nat. }
    exists (a, b), (None, None), (Some c', Some x'). split; [exact Ei|]. split; [unfold th_coherent; rewrite N5; reflexivity|]. cbn [fst snd opt_shows]. auto 12.
  - exists (a, b), (None, None), (None, None). split; [exact Ei|]. split; [unfold th_coherent; rewrite N5; reflexivity|]. split; [unfold th_incoherent; rewrite N5; reflexivity|]. cbn [fst snd opt_shows]. auto 12.
Qed.

Lemma th_from_values bm zaid v : verifyType ["t"%char] zaid = Ok tt -> th_valid v ->
  exists t, th_build bm zaid v = Ok t /\ th_returns bm zaid v t /\ d_jxs (tt_data t) = th_jxs v ++ zeros (32 - length (th_jxs v))
    /\ th_of bm zaid (th_own (tv_za v) t) = Ok t
    /\ exists iz, set_iz 0 (tv_za v) (zeros 16) = Ok iz /\ tt_data t = TData iz (dzeros 16) (th_nxs v) (th_jxs v ++ zeros (32 - length (th_jxs v))) (tv_words v).
Proof.
  intros Ht V. pose proof (vv_size _ V) as Hs. pose proof (vv_it _ V) as Vit. pose proof (it_sizes _ _ _ Vit) as (Hnc & Hf & Hne & Hcc & _).
  pose proof (vv_ne _ V) as Hen. pose proof (len_nonneg (tv_e v)) as Hle. pose proof (len_nonneg (concat (concat (cs_words (tv_cs v))))) as Hlw.
  pose proof (len_nonneg (tv_words v)) as Hltw. assert (Hlocb : tv_locb v = len (tc_layout (tv_e v) (tv_xs v)) + 1).
  { unfold tv_locb, tc_layout. rewrite len_cons, len_app, (vv_xs _ V). lia. }
  assert (Hl : 1 <= tv_locb v) by (unfold tv_locb; lia).
  assert (Hw : len (tv_words v) < max_words) by (unfold max_words; lia). pose proof Hw as Hw'. unfold tv_words in Hw'. repeat rewrite len_app in Hw'. unfold max_words in Hw'.
  assert (Hxs : forall c, len (xs_words c) = 1 + len (fst c) + len (snd c)) by (intros c; unfold xs_words, tc_layout; rewrite len_cons, len_app; lia).
  assert (Hpos : 0 <= len (tc_layout (tv_e v) (tv_xs v)) /\ 0 <= len (it_layout (tv_ifeng v) (tv_locb v) (tv_cs v)) /\ 0 <= len (opt_words xs_words (tv_ce v))
    /\ 0 <= len (opt_words (@concat double) (tv_ca v)) /\ 0 <= len (opt_words xs_words (tv_cei v)) /\ 0 <= len (opt_words (@concat double) (tv_cai v)))
    by (repeat split; apply len_nonneg).
  destruct Hpos as (P1 & P2 & P3 & P4 & P5 & P6).
  assert (Hnc2 : tv_nc v < 2 ^ 31 /\ first_count (tv_cs v) < 2 ^ 31).
  { destruct Vit as (_ & F & (d0 & c0 & r0 & Ecs) & _). rewrite Ecs in Hs, F, Hcc. inversion F as [|? ? F1 _]; subst. inversion F1 as [|? ? [_ Ln] _]; subst. split.
    - rewrite <- Ln. unfold cs_words in Hs. cbn [map concat] in Hs. rewrite concat_app in Hs. cbn [concat] in Hs. repeat rewrite len_app in Hs.
      assert (len (cn_mu d0) <= len (cn_words d0)) by (destruct d0; cbn [cn_mu cn_words]; rewrite ?len_cons; lia). nonneg. lia.
    - rewrite Ecs. cbn [first_count]. inversion Hcc; subst. pose proof (len_nonneg ((d0 :: c0) :: r0)). lia. }
  destruct Hnc2 as [Hnc2 Hf2].
  (* the blocks *)
  destruct (tc_supplies bm (tv_e v) (tv_xs v) (vv_xs _ V) ltac:(unfold max_words; lia)) as [(itie & E1 & C1 & S1) R1].
  destruct (it_supplies bm (tv_ifeng v) (tv_nc v) (tv_locb v) (tv_cs v) Vit Hl ltac:(lia)) as [(itx & E2 & C2 & S2) R2].
  destruct (optM_supplies (fun c => tc_of (fst c) (snd c)) cd_v (fun _ => tc_make) xs_words (fun c => tc_shows bm (fst c) (snd c)) (tv_ce v)) as (oce & E3 & H3).
  { intros c Ec. pose proof (vv_ce _ V) as X. rewrite Ec in X, P3, Hw'. apply tc_supplies; [exact X|cbn [opt_words] in *; change (tc_layout (fst c) (snd c)) with (xs_words c); unfold max_words; lia]. }
  destruct (optM_supplies te_of ad_v (fun a v => te_make v (len a) (ca_nc a)) (@concat double) (fun a => te_shows bm (ca_nc a) a) (tv_ca v)) as (oca & E4 & H4).
  { intros a Ea. pose proof (vv_ca _ V) as X. rewrite Ea in X, P4, Hw'. destruct X as (c & Ec & (Na & La & Fa) & _). rewrite Ec in P3, Hw'. cbn [opt_words] in *. rewrite Hxs in Hw'.
    assert (Ba : ca_nc a < 2 ^ 31). { destruct a as [|x a]; [congruence|]. unfold ca_nc. cbn [first_count concat] in *. rewrite len_app in *. pose proof (len_nonneg (concat a)). pose proof (len_nonneg (fst c)). pose proof (len_nonneg (snd c)). lia. }
    pose proof (len_nonneg (fst c)). pose proof (len_nonneg (snd c)). apply te_supplies; [exact Fa|exact Na|lia|lia|unfold max_words; lia]. }
  destruct (optM_supplies (fun c => tc_of (fst c) (snd c)) cd_v (fun _ => tc_make) xs_words (fun c => tc_shows bm (fst c) (snd c)) (tv_cei v)) as (ocei & E5 & H5).
  { intros c Ec. pose proof (vv_cei _ V) as X. rewrite Ec in X, P5, Hw'. destruct (tv_cai v); [|contradiction]. apply tc_supplies; [apply X|cbn [opt_words] in *; change (tc_layout (fst c) (snd c)) with (xs_words c); unfold max_words; lia]. }
  destruct (optM_supplies te_of ad_v (fun a v => te_make v (len a) (ca_nc a)) (@concat double) (fun a => te_shows bm (ca_nc a) a) (tv_cai v)) as (ocai & E6 & H6).
  { intros a Ea. pose proof (vv_cei _ V) as X. rewrite Ea in X, P6, Hw'. destruct (tv_cei v) as [c|] eqn:Ec; [|contradiction]. destruct X as (_ & (Na & La & Fa)). cbn [opt_words] in *. rewrite Hxs in Hw'.
    assert (Ba : ca_nc a < 2 ^ 31). { destruct a as [|x a]; [congruence|]. unfold ca_nc. cbn [first_count concat] in *. rewrite len_app in *. pose proof (len_nonneg (concat a)). pose proof (len_nonneg (fst c)). pose proof (len_nonneg (snd c)). lia. }
    pose proof (len_nonneg (fst c)). pose proof (len_nonneg (snd c)). apply te_supplies; [exact Fa|exact Na|lia|lia|unfold max_words; lia]. }
  unfold th_build. rewrite E1, E2. cbn [bind]. rewrite E3. cbn [bind]. rewrite E4. cbn [bind]. rewrite E5. cbn [bind]. rewrite E6. cbn [bind]. clear E1 E2 E3 E4 E5 E6.
  destruct (vv_za _ V) as [Lza Fza]. destruct (set_iz_spec (tv_za v) 0 (zeros 16) Fza ltac:(unfold len in Lza; cbn; lia)) as (iz & Eiz & Liz & Niz & _).
  unfold th_of. rewrite (th_generateData_ok bm (ThIn (tv_za v) itie itx oce oca ocei ocai) v iz V Eiz); cbn [th_itie th_itxe th_itce th_itca th_itcei th_itcai]; try assumption.
  2-5: repeat match goal with |- opt_shows _ ?a ?b => destruct a, b; cbn [opt_shows] end; tauto.
  cbn [bind]. unfold th_make. rewrite Ht. cbn [bind].
  (* the arrays *)
  assert (Hncl : forall a c, cosines_valid c a -> 0 <= ca_nc a). { intros [|x a] c (N & _); [congruence|]. apply len_nonneg. }
  pose proof (vv_ce _ V) as Vce. pose proof (vv_ca _ V) as Vca. pose proof (vv_cei _ V) as Vcei.
  set (nxs := [len (tv_words v); _; _; _; _; _; _; _; _; _; _; _; _; _; _; _]).
  set (jxs := th_jxs v ++ _).
  set (d := TData iz (dzeros 16) nxs jxs (tv_words v)).
  assert (G : forall k x, nth_error nxs k = Some x -> d_NXS bm d (Z.of_nat k + 1) = Ok x) by (intros k x Hk; unfold d_NXS; cbn [d_nxs d]; apply fetch_in; [exact Hk|reflexivity]).
  pose proof (G 0%nat _ eq_refl) as G1. pose proof (G 1%nat _ eq_refl) as G2. pose proof (G 2%nat _ eq_refl) as G3. pose proof (G 3%nat _ eq_refl) as G4.
  pose proof (G 4%nat _ eq_refl) as G5. pose proof (G 5%nat _ eq_refl) as G6. pose proof (G 6%nat _ eq_refl) as G7. pose proof (G 7%nat _ eq_refl) as G8. clear G.
  cbn [Z.of_nat Z.add Pos.of_succ_nat Pos.succ Pos.add] in G1, G2, G3, G4, G5, G6, G7, G8.
  assert (N1 : th_length bm d = Ok (len (tv_words v))) by (unfold th_length; rewrite G1; cbn [bind]; rewrite u32_small by (unfold max_words in Hw; lia); reflexivity).
  assert (N2 : th_IDPNI bm d = Ok 3) by (unfold th_IDPNI; rewrite G2; reflexivity).
  assert (N3 : th_NIL bm d = Ok (if tv_ifeng v <? 2 then u32 (tv_nc v - 1) else tv_nc v + 1)).
  { unfold th_NIL. rewrite G3. cbn [bind]. destruct (tv_ifeng v <? 2); [reflexivity|]. rewrite u32_small by lia. reflexivity. }
  assert (N4 : th_NIEB bm d = Ok (if tv_ifeng v <? 2 then first_count (tv_cs v) else 0)).
  { unfold th_NIEB. rewrite G4. cbn [bind]. destruct (tv_ifeng v <? 2); rewrite u32_small by lia; reflexivity. }
  assert (N5 : th_IDPNC bm d = Ok (idpnc v)).
  { unfold th_IDPNC. rewrite G5. cbn [bind]. unfold idpnc. destruct (tv_ce v), (tv_cei v); reflexivity. }
  assert (N7 : th_IFENG bm d = Ok (tv_ifeng v)). { unfold th_IFENG. rewrite G7. cbn [bind]. destruct Vit as (Hi & _). rewrite u32_small by lia. reflexivity. }
  assert (Bca : match tv_ca v with Some a => 0 <= ca_nc a < 2 ^ 31 | None => True end).
  { destruct (tv_ca v) as [a|]; [|exact I]. destruct Vca as (c & Ec & (Na & La & Fa) & Ha). cbn [opt_words] in *. split; [lia|]. destruct a as [|x a]; [congruence|].
    unfold ca_nc. cbn [first_count concat] in *. rewrite len_app in *. pose proof (len_nonneg (concat a)). lia. }
  assert (Bcai : match tv_cai v with Some a => 0 <= ca_nc a < 2 ^ 31 | None => True end).
  { destruct (tv_cai v) as [a|]; [|exact I]. destruct (tv_cei v) as [c|]; [|contradiction]. destruct Vcei as (_ & X). pose proof (Hncl _ _ X). destruct X as (Na & La & Fa).
    cbn [opt_words] in *. split; [lia|]. destruct a as [|x a]; [congruence|]. unfold ca_nc. cbn [first_count concat] in *. rewrite len_app in *. pose proof (len_nonneg (concat a)). lia. }
  assert (N6 : th_NCL bm d = Ok (match tv_ce v, tv_cei v with Some _, _ => ncl_of (tv_ca v) | None, Some _ => ncl_of (tv_cai v) | None, None => 0 end)).
  { unfold th_NCL. rewrite G6. cbn [bind]. f_equal. apply s32_small. unfold ncl_of. revert Bca Bcai. clear. destruct (tv_ce v), (tv_cei v), (tv_ca v), (tv_cai v); intros; lia. }
  assert (N8 : th_NCLI bm d = Ok (match tv_ce v, tv_cei v with Some _, Some _ => ncl_of (tv_cai v) | _, _ => 0 end)).
  { unfold th_NCLI. rewrite G8. cbn [bind]. f_equal. apply s32_small. unfold ncl_of. revert Bca Bcai. clear. destruct (tv_ce v), (tv_cei v), (tv_ca v), (tv_cai v); intros; lia. }
  clear G1 G2 G3 G4 G5 G6 G7 G8.
  assert (Ljxs : length jxs = 32%nat) by (subst jxs; rewrite app_length; unfold zeros; rewrite repeat_length; unfold th_jxs; destruct (tv_ce v), (tv_cei v); reflexivity).
  (* each combination *)
  set (Pt := fun e xs o => tc_shows bm e xs o /\ content (cd_v o) (tc_layout e xs)).
  set (Pi := fun f n cs o => it_shows bm f n cs o /\ content (it_v o) (it_layout (tv_ifeng v) (tv_locb v) (tv_cs v))).
  set (Pe := fun n a o => te_shows bm n a o /\ content (ad_v o) (concat a)).
  assert (W : forall A B (S T : A -> B -> Prop) x o, (forall a b, S a b -> T a b) -> opt_shows S x o -> opt_shows T x o) by (intros A B S T [x|] [o|] Hi Ho; cbn [opt_shows] in *; auto).
  assert (Goal : exists i c n, th_inelastic bm d = Ok i /\ th_coherent bm d = Ok c /\ th_incoherent bm d = Ok n
    /\ Pt (tv_e v) (tv_xs v) (fst i) /\ Pi (tv_ifeng v) (tv_nc v) (tv_cs v) (snd i)
    /\ opt_shows (fun c => Pt (fst c) (snd c)) (tv_ce v) (fst c) /\ opt_shows (fun a => Pe (ca_nc a) a) (tv_ca v) (snd c)
    /\ opt_shows (fun c => Pt (fst c) (snd c)) (tv_cei v) (fst n) /\ opt_shows (fun a => Pe (ca_nc a) a) (tv_cai v) (snd n)).
  2:{ destruct Goal as (i & c & n & Ei & Ec & En & Q1 & Q2 & Q3 & Q4 & Q5 & Q6). rewrite Ei. cbn [bind]. rewrite Ec. cbn [bind]. rewrite En. cbn [bind].
      eexists. split; [reflexivity|]. split; [|split; [reflexivity|split; [|exists iz; split; [exact Eiz|reflexivity]]]].
      2:{ unfold th_of. rewrite (th_generateData_ok bm (th_own (tv_za v) _) v iz V Eiz); cbn [th_own th_itie th_itxe th_itce th_itca th_itcei th_itcai tt_itie tt_itxe tt_itce tt_itca tt_itcei tt_itcai].
          - cbn [bind]. unfold th_make. try rewrite Ht. cbn [bind]. fold nxs. fold jxs. fold d. rewrite Ei. cbn [bind]. rewrite Ec. cbn [bind]. rewrite En. reflexivity.
          - exact (proj2 Q1).
          - exact (proj1 Q1).
          - exact (proj2 Q2).
          - exact (proj1 Q2).
          - revert Q3. apply W. intros x o [? ?]. split; assumption.
          - revert Q4. apply W. intros x o [? ?]. split; assumption.
          - revert Q5. apply W. intros x o [? ?]. split; assumption.
          - revert Q6. apply W. intros x o [? ?]. split; assumption. }
      apply (fun H => proj1 H) in Q1. apply (fun H => proj1 H) in Q2.
      apply (W _ _ _ (fun c => tc_shows bm (fst c) (snd c))) in Q3; [|intros ? ? [? _]; assumption]. apply (W _ _ _ (fun a => te_shows bm (ca_nc a) a)) in Q4; [|intros ? ? [? _]; assumption].
      apply (W _ _ _ (fun c => tc_shows bm (fst c) (snd c))) in Q5; [|intros ? ? [? _]; assumption]. apply (W _ _ _ (fun a => te_shows bm (ca_nc a) a)) in Q6; [|intros ? ? [? _]; assumption].
      constructor; cbn [tt_zaid tt_data tt_itie tt_itxe tt_itce tt_itca tt_itcei tt_itcai]; try assumption; try reflexivity.
      - intros k z Hk. unfold d_IZ. cbn [d_iz d]. apply fetch_in; [apply (Niz k z Hk)|unfold len; rewrite Liz; reflexivity].
      - unfold data_wf. cbn [d_iz d_aw d_nxs d_jxs d]. refine (conj _ (conj eq_refl (conj eq_refl _))); [unfold len; rewrite Liz; reflexivity|unfold len; rewrite Ljxs; reflexivity]. }
  apply th_reads; try assumption; try (unfold max_words in Hw; lia).
  - intros e xs o [(N0 & _) _]. exact N0.
  - reflexivity.
  - reflexivity.
  - rewrite (it_layout_len _ (tv_nc v)) by (assumption || lia). destruct Vit as (_ & _ & (d0 & c0 & r0 & Ecs) & _). rewrite Ecs. unfold cs_words. cbn [map concat]. rewrite concat_app. cbn [concat].
    rewrite !len_app. assert (1 <= len (cn_words d0)) by (destruct d0; cbn [cn_words]; rewrite len_cons; nonneg; lia). pose proof (len_nonneg (concat (map cn_words c0))).
    pose proof (len_nonneg (concat (concat (map (map cn_words) r0)))). pose proof (len_nonneg ((d0 :: c0) :: r0)). destruct (_ <? 2); lia.
  - refine (reads_content _ cd_v _ _ (fun w o0 => tc_make_view w o0) _). assumption.
  - refine (reads_content _ it_v _ _ (fun w o0 => it_make_view bm _ _ _ _ _ w o0) _). assumption.
  - intros c Ec. rewrite Ec in H3. destruct oce; [|contradiction]. refine (reads_content _ cd_v _ _ (fun w o0 => tc_make_view w o0) _). apply H3.
  - intros c Ec. rewrite Ec in H4. destruct oca; [|contradiction]. refine (reads_content _ ad_v _ _ (fun w o0 => te_make_view w _ _ o0) _). apply H4.
  - intros c Ec. rewrite Ec in H5. destruct ocei; [|contradiction]. refine (reads_content _ cd_v _ _ (fun w o0 => tc_make_view w o0) _). apply H5.
  - intros c Ec. rewrite Ec in H6. destruct ocai; [|contradiction]. refine (reads_content _ ad_v _ _ (fun w o0 => te_make_view w _ _ o0) _). apply H6.
Qed.
