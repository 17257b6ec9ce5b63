(** NU (fission multiplicities), UNR (probability tables) and BDD (delayed neutron precursors). *)
From Coq Require Import ZArith Bool List Lia.
From Coq Require Import ZifyBool ZifyNat.
From Verif Require Export ReactionNumbers.
Import ListNotations.
Open Scope Z_scope.

(** * PolynomialFissionMultiplicity *)

(** continuous::PolynomialFissionMultiplicity, src/generateXSS.hpp:1-9 *)
Definition pf_generateXSS (cs : list double) : list double := dbl 1 :: dbl (len cs) :: cs.
(** LNU(), NC(), C(): PolynomialFissionMultiplicity.hpp:38-64 *)
Definition pf_LNU bm (v : view) : outcome Z := n <- ixss bm v 1 ;; Ok (u32 n).
Definition pf_NC bm (v : view) : outcome Z := ixss_size bm v 2.
Definition pf_C bm (v : view) : outcome (list double) := n <- pf_NC bm v ;; xssr bm v 3 n.
(** ctor.hpp:14-16 and 24-29, verifySize.hpp:1-13, verifyLNU.hpp:1-10 *)
Definition pf_of (cs : list double) : view := own (pf_generateXSS cs).
Definition pf_make bm (v : view) : outcome view :=
  n <- pf_NC bm v ;; _ <- verify_at_least v (u32 (u32 n + 2)) ;;
  lnu <- pf_LNU bm v ;; _ <- throw_if (negb (lnu =? 1)) StdException ;; Ok v.

Lemma pf_has bm v cs : has v (pf_generateXSS cs) ->
  pf_make bm v = Ok v /\ pf_LNU bm v = Ok 1 /\ pf_NC bm v = Ok (len cs) /\ pf_C bm v = Ok cs.
Proof.
  intros Hv. pose proof (has_bounds _ _ Hv) as B. unfold pf_generateXSS in *. rewrite !len_cons in B. pose proof (len_nonneg cs).
  assert (N : pf_NC bm v = Ok (len cs)) by (apply (ixss_size_at bm v [dbl 1] (len cs) cs); [exact Hv|reflexivity|lia]).
  assert (L : pf_LNU bm v = Ok 1).
  { unfold pf_LNU. rewrite (ixss_at bm v [] 1 (dbl (len cs) :: cs)) by (try exact Hv; try reflexivity; lia). reflexivity. }
  split; [|split; [exact L|split; [exact N|]]].
  - unfold pf_make. rewrite N. cbn [bind]. rewrite (u32_small (len cs)) by lia. rewrite u32_small by lia.
    rewrite (verify_at_least_has _ _ _ Hv) by (rewrite !len_cons; lia). cbn [bind]. rewrite L. reflexivity.
  - unfold pf_C. rewrite N. cbn [bind]. apply (xssr_has bm v [dbl 1; dbl (len cs)] cs []); [rewrite app_nil_r; exact Hv|reflexivity|reflexivity].
Qed.

(** * FissionMultiplicityBlock *)

(** std::variant< PolynomialFissionMultiplicity, TabulatedFissionMultiplicity >,
    FissionMultiplicityBlock.hpp:25-26 *)
Inductive nu_data := NuPoly (v : view) | NuTab (o : prefixedTabulated).
(** FissionMultiplicityBlock.hpp:31-32 *)
Record nu := Nu { nu_v : view; nu_prompt : nu_data; nu_total : option nu_data }.

(** src/generateXSS.hpp:1-9 and 11-24; the arguments are the words [begin(), end()) of the
    multiplicity objects. *)
Definition nu_generateXSS (prompt : list double) (total : option (list double)) : list double :=
  match total with
  | None => prompt
  | Some t => SFopp (dbl (len prompt)) :: prompt ++ t
  end.
(** src/generateBlocks.hpp:1-16 *)
Definition nu_generateData bm (v : view) : outcome nu_data :=
  lnu <- (x <- deref (buf v) (vbeg v) ;; round_to_u32 x) ;;
  if lnu =? 1 then p <- pf_make bm v ;; Ok (NuPoly p)
  else if lnu =? 2 then t <- tf_make bm v ;; Ok (NuTab t)
  else Throw StdException.
(** static_cast< unsigned int >( std::abs( std::round( x ) ) ) *)
Definition abs_round_to_u32 (x : double) : outcome Z :=
  match sf_round x with Some z => if Z.abs z <? 2 ^ 32 then Ok (Z.abs z) else UB | None => UB end.
(** src/generateBlocks.hpp:18-38; without words the members keep their default values *)
Definition nu_generateBlocks bm (v : view) : outcome nu :=
  if 0 <? vlen v then
    x <- xss bm v 1 ;;
    if SFltb x (dbl 0) then
      k <- (y <- deref (buf v) (vbeg v) ;; abs_round_to_u32 y) ;;
      let knu := u32 (k + 1) in
      p <- nu_generateData bm (sub v (vbeg v + 1) (vbeg v + knu)) ;;
      t <- nu_generateData bm (sub v (vbeg v + knu) (vend v)) ;;
      Ok (Nu v p (Some t))
    else p <- nu_generateData bm v ;; Ok (Nu v p None)
  else Ok (Nu v (NuPoly (View [] 0 0)) None).
(** src/ctor.hpp:58-62, 70-75 and 83-87 *)
Definition nu_of bm (prompt : list double) (total : option (list double)) : outcome nu :=
  nu_generateBlocks bm (own (nu_generateXSS prompt total)).
Definition nu_make bm (v : view) : outcome nu := nu_generateBlocks bm v.
(** hasPromptAndTotalFissionMultiplicity(), multiplicity(), totalFissionMultiplicity(): FissionMultiplicityBlock.hpp:49-76 *)
Definition nu_both (o : nu) : bool := match nu_total o with Some _ => true | None => false end.

(** Specification: the multiplicities a user supplies, the words of the object built from them
    (which may be followed by other words when the object is itself a view), and what it shows. *)
Inductive nu_in := IPoly (cs : list double) | ITab (nbt int : list Z) (x y : list double).
Definition nu_layout (i : nu_in) : list double :=
  match i with IPoly cs => pf_generateXSS cs | ITab nbt int x y => dbl 2 :: td_layout nbt int x y end.
Definition nu_valid (i : nu_in) : Prop :=
  match i with IPoly _ => True | ITab nbt int x y => len int = len nbt /\ len y = len x end.
Definition nu_words (i : nu_in) (l : list double) : Prop := nu_valid i /\ exists rest, l = nu_layout i ++ rest.
Definition nu_shows bm (d : nu_data) (i : nu_in) : Prop :=
  match d, i with
  | NuPoly v, IPoly cs => pf_LNU bm v = Ok 1 /\ pf_NC bm v = Ok (len cs) /\ pf_C bm v = Ok cs
  | NuTab o, ITab nbt int x y => tf_LNU bm o = Ok 2 /\ td_shows bm (pt_tab o) nbt int x y
  | _, _ => False
  end.

Lemma nu_data_has bm v i : nu_valid i -> has v (nu_layout i) -> exists d, nu_generateData bm v = Ok d /\ nu_shows bm d i.
Proof.
  intros Hi Hv. unfold nu_generateData. destruct i as [cs|nbt int x y]; cbn [nu_layout nu_valid] in *.
  - rewrite (deref_has v (dbl 1) (dbl (len cs) :: cs) Hv). cbn [bind]. rewrite round_to_u32_dbl by lia. cbn [bind Z.eqb Pos.eqb].
    destruct (pf_has bm v cs Hv) as (M & A). rewrite M. cbn [bind]. eexists; split; [reflexivity|exact A].
  - destruct Hi as [E1 E2]. rewrite (deref_has v (dbl 2) _ Hv). cbn [bind]. rewrite round_to_u32_dbl by lia. cbn [bind Z.eqb Pos.eqb].
    destruct (tf_has bm v nbt int x y E1 E2 Hv) as (o & M & _ & A). rewrite M. cbn [bind]. eexists; split; [reflexivity|exact A].
Qed.

Lemma nu_layout_pos i : exists x r, nu_layout i = x :: r /\ SFltb x (dbl 0) = false /\ 2 <= len (nu_layout i).
Proof.
  destruct i as [cs|nbt int x y]; do 2 eexists; (split; [reflexivity|]); (split; [reflexivity|]).
  - cbn [nu_layout pf_generateXSS]. unfold pf_generateXSS. rewrite !len_cons. pose proof (len_nonneg cs). lia.
  - cbn [nu_layout]. unfold td_layout. rewrite !len_cons. match goal with |- _ <= _ + (_ + len ?l) => pose proof (len_nonneg l) end. lia.
Qed.

(** One multiplicity. *)
Lemma nu_single bm v p lp : nu_words p lp -> has v (nu_generateXSS lp None) ->
  exists o, nu_make bm v = Ok o /\ nu_v o = v /\ nu_both o = false /\ nu_shows bm (nu_prompt o) p.
Proof.
  intros [Hp [rest ->]] Hv. cbn [nu_generateXSS] in Hv. unfold nu_make, nu_generateBlocks.
  destruct (nu_layout_pos p) as (x & r & E & Hx & L). pose proof (has_bounds _ _ Hv) as B. rewrite len_app in B. pose proof (len_nonneg rest).
  rewrite (vlen_has _ _ Hv). destruct (Z.ltb_spec 0 (vend v - vbeg v)); [|lia].
  assert (X : xss bm v 1 = Ok x) by (rewrite E in Hv; apply (xss_at bm v [] x (r ++ rest)); [exact Hv|reflexivity]).
  rewrite X. cbn [bind]. rewrite Hx.
  destruct (nu_data_has bm v p Hp (has_app _ _ _ Hv)) as (d & G & S). rewrite G. cbn [bind].
  eexists; split; [reflexivity|]. split; [reflexivity|]. split; [reflexivity|exact S].
Qed.

(** Two multiplicities. *)
Lemma nu_double bm v p t lp lt : nu_words p lp -> nu_words t lt -> has v (nu_generateXSS lp (Some lt)) ->
  exists o d, nu_make bm v = Ok o /\ nu_v o = v /\ nu_both o = true /\ nu_shows bm (nu_prompt o) p
    /\ nu_total o = Some d /\ nu_shows bm d t.
Proof.
  intros [Hp [rp ->]] [Ht [rt ->]] Hv. cbn [nu_generateXSS] in Hv. unfold nu_make, nu_generateBlocks.
  set (lp := nu_layout p ++ rp) in *. set (lt := nu_layout t ++ rt) in *.
  pose proof (has_bounds _ _ Hv) as B. rewrite len_cons, len_app in B.
  assert (Lp : 2 <= len lp). { unfold lp. rewrite len_app. destruct (nu_layout_pos p) as (? & ? & _ & _ & L). pose proof (len_nonneg rp). lia. }
  assert (Lt : 2 <= len lt). { unfold lt. rewrite len_app. destruct (nu_layout_pos t) as (? & ? & _ & _ & L). pose proof (len_nonneg rt). lia. }
  rewrite dbl_opp in Hv by lia.
  rewrite (vlen_has _ _ Hv). destruct (Z.ltb_spec 0 (vend v - vbeg v)); [|lia].
  rewrite (xss_at bm v [] (dbl (- len lp)) (lp ++ lt)) by (try exact Hv; reflexivity). cbn [bind].
  rewrite dbl_ltb_0 by lia. destruct (Z.ltb_spec (- len lp) 0); [|lia].
  rewrite (deref_has v _ _ Hv). cbn [bind]. unfold abs_round_to_u32 at 1. rewrite sf_round_dbl by lia.
  destruct (Z.ltb_spec (Z.abs (- len lp)) (2 ^ 32)); [|lia]. cbn [bind]. rewrite u32_small by lia.
  assert (C1 : content (sub v (vbeg v + 1) (vbeg v + (Z.abs (- len lp) + 1))) lp).
  { apply (sub_content v [dbl (- len lp)] lp lt); [exact Hv|reflexivity|]. change (len [dbl (- len lp)]) with 1. lia. }
  assert (C2 : has (sub v (vbeg v + (Z.abs (- len lp) + 1)) (vend v)) lt).
  { apply (sub_has v (dbl (- len lp) :: lp) lt); [exact Hv|rewrite len_cons; lia|rewrite len_cons; lia]. }
  destruct (nu_data_has bm _ p Hp (has_app _ _ _ (content_has _ _ C1))) as (d1 & G1 & S1).
  destruct (nu_data_has bm _ t Ht (has_app _ _ _ C2)) as (d2 & G2 & S2).
  rewrite G1. cbn [bind]. rewrite G2. cbn [bind]. do 2 eexists. split; [reflexivity|]. cbn [nu_v nu_both nu_total nu_prompt]. auto.
Qed.

(** The words of the objects a user makes. *)
Definition nu_in_words (i : nu_in) : outcome (list double) :=
  match i with IPoly cs => Ok (pf_generateXSS cs) | ITab nbt int x y => tf_generateXSS nbt int x y end.
Lemma nu_in_words_ok i l : nu_in_words i = Ok l -> nu_words i l /\ l = nu_layout i.
Proof.
  destruct i as [cs|nbt int x y]; cbn [nu_in_words]; intros H.
  - apply Ok_inj in H. subst l. split; [|reflexivity]. split; [exact I|]. exists []. rewrite app_nil_r. reflexivity.
  - unfold tf_generateXSS in H. destruct (pt_generateXSS_inv _ _ _ _ _ _ H) as (E1 & E2 & ->).
    split; [|reflexivity]. split; [split; assumption|]. exists []. rewrite app_nil_r. reflexivity.
Qed.

(** * ProbabilityTable *)

(** continuous::ProbabilityTable: an ArrayData of six arrays and the incident energy
    (ProbabilityTable.hpp:25); ctor.hpp:20-31 *)
Record ptable := PTable { tb_a : arrayData; tb_e : double }.
Definition tb_of (incident : double) (probabilities total elastic fission capture heating : list double) : outcome ptable :=
  a <- ad_of_arrays [probabilities; total; elastic; fission; capture; heating] ;; Ok (PTable a incident).
(** The constructor without fission, ctor.hpp:43-53.  The declared parameters are named
    ( incident, total, probabilities, elastic, capture, heating ), and [total.size()] is evaluated
    before or after [std::move( total )] has emptied it (the order is unspecified): [moved] says
    which.  A moved-from std::vector parameter has been moved into the by-value parameter of the
    delegated constructor and is empty. *)
Definition tb_of5 (moved : bool) (incident : double) (total probabilities elastic capture heating : list double) : outcome ptable :=
  tb_of incident probabilities total elastic (repeat (dbl 0) (Z.to_nat (u32 (if moved then 0 else len total)))) capture heating.
(** ctor.hpp:61-64: [bins] is converted to unsigned int *)
Definition tb_make (v : view) (incident : double) (bins : Z) : outcome ptable :=
  a <- ad_make v (u32 bins) 6 ;; Ok (PTable a incident).
(** ProbabilityTable.hpp:37-72 *)
Definition tb_incidentEnergy (o : ptable) : double := tb_e o.
Definition tb_numberBins (o : ptable) : Z := ad_n (tb_a o).
Definition tb_cumulativeProbabilities bm o := ad_darray bm (tb_a o) 1.
Definition tb_total bm o := ad_darray bm (tb_a o) 2.
Definition tb_elastic bm o := ad_darray bm (tb_a o) 3.
Definition tb_fission bm o := ad_darray bm (tb_a o) 4.
Definition tb_capture bm o := ad_darray bm (tb_a o) 5.
Definition tb_heating bm o := ad_darray bm (tb_a o) 6.

(** What a user supplies for one table. *)
Record tb_in := TbIn { ti_e : double; ti_p : list double; ti_t : list double; ti_el : list double;
                       ti_f : list double; ti_c : list double; ti_h : list double }.
Definition ti_arrays (i : tb_in) := [ti_p i; ti_t i; ti_el i; ti_f i; ti_c i; ti_h i].
Definition ti_layout (i : tb_in) := ti_p i ++ ti_t i ++ ti_el i ++ ti_f i ++ ti_c i ++ ti_h i.
Definition tb_of_in (i : tb_in) : outcome ptable := tb_of (ti_e i) (ti_p i) (ti_t i) (ti_el i) (ti_f i) (ti_c i) (ti_h i).
Definition tb_shows bm (o : ptable) (i : tb_in) : Prop :=
  tb_incidentEnergy o = ti_e i /\ tb_numberBins o = len (ti_p i)
  /\ tb_cumulativeProbabilities bm o = Ok (ti_p i) /\ tb_total bm o = Ok (ti_t i) /\ tb_elastic bm o = Ok (ti_el i)
  /\ tb_fission bm o = Ok (ti_f i) /\ tb_capture bm o = Ok (ti_c i) /\ tb_heating bm o = Ok (ti_h i).
Definition ti_valid (m : Z) (i : tb_in) : Prop := all_len m (ti_arrays i).

Lemma ti_concat i : concat (ti_arrays i) = ti_layout i.
Proof. unfold ti_arrays, ti_layout. cbn [concat]. rewrite app_nil_r. reflexivity. Qed.
Lemma ti_len m i : ti_valid m i -> len (ti_layout i) = 6 * m /\ len (ti_p i) = m.
Proof.
  intros H. rewrite <- ti_concat, (len_concat m) by exact H. split; [reflexivity|]. inversion H; assumption.
Qed.

Lemma tb_has bm v m i : ti_valid m i -> has v (ti_layout i) -> exists o, tb_make v (ti_e i) m = Ok o /\ ad_v (tb_a o) = v /\ tb_shows bm o i.
Proof.
  intros H Hv. pose proof (has_bounds _ _ Hv) as B. destruct (ti_len _ _ H) as [L1 L2]. pose proof (len_nonneg (ti_p i)).
  rewrite <- ti_concat in Hv. destruct (ad_shows_has bm v m (ti_arrays i) H ltac:(lia) ltac:(reflexivity) Hv) as [M [N S]].
  unfold tb_make. rewrite u32_small by lia. change 6 with (len (ti_arrays i)). rewrite M. cbn [bind].
  eexists; split; [reflexivity|]. split; [reflexivity|]. split; [reflexivity|]. split; [cbn; lia|].
  split; [exact (S 0%nat _ eq_refl)|]. split; [exact (S 1%nat _ eq_refl)|]. split; [exact (S 2%nat _ eq_refl)|].
  split; [exact (S 3%nat _ eq_refl)|]. split; [exact (S 4%nat _ eq_refl)|exact (S 5%nat _ eq_refl)].
Qed.

Lemma tb_of_ok bm m i : ti_valid m i -> len (ti_layout i) < max_words ->
  exists o, tb_of_in i = Ok o /\ content (ad_v (tb_a o)) (ti_layout i) /\ tb_shows bm o i /\ ad_n (tb_a o) = m /\ ad_v (tb_a o) = own (ti_layout i).
Proof.
  intros H B. pose proof (own_content _ B) as C. destruct (tb_has bm _ m i H (content_has _ _ C)) as (o & M & V & S).
  destruct (ti_len _ _ H) as [L1 L2]. pose proof (len_nonneg (ti_p i)).
  assert (B0 := B). unfold max_words in B. unfold tb_make in M. rewrite u32_small in M by lia. unfold ad_make in M. destruct (ad_verifySize _ m 6); try discriminate. cbn [bind] in M.
  apply Ok_inj in M. exists o. unfold tb_of_in, tb_of.
  change [ti_p i; ti_t i; ti_el i; ti_f i; ti_c i; ti_h i] with (ti_arrays i).
  rewrite (ad_of_ok (ti_arrays i) m H) by (try discriminate; try reflexivity; rewrite ti_concat; exact B0).
  cbn [bind]. rewrite ti_concat. change (len (ti_arrays i)) with 6. rewrite M. split; [reflexivity|]. rewrite V. split; [exact C|]. split; [exact S|].
  subst o. auto.
Qed.
Lemma tb_of_ragged i : ~ ti_valid (len (ti_p i)) i -> tb_of_in i = Throw StdException.
Proof.
  intros H. unfold tb_of_in, tb_of, ad_of_arrays, ad_generateXSS. 
  rewrite ad_append_ragged by exact H. reflexivity.
Qed.

(** * ProbabilityTableBlock *)

Record unr := Unr { un_v : view; un_data : list ptable }.
(** src/generateXSS.hpp:1-22: the arguments are table objects; [front()] of an empty vector is
    undefined *)
Definition un_generateXSS (interpolation inelastic absorption type : Z) (tables : list ptable) : outcome (list double) :=
  match tables with
  | [] => UB
  | t0 :: _ =>
      ws <- mapM (fun t => xss_all (ad_v (tb_a t))) tables ;;
      Ok ([dbl (len tables); dbl (tb_numberBins t0); dbl interpolation; dbl inelastic; dbl absorption; dbl type]
            ++ map tb_incidentEnergy tables ++ concat ws)
  end.
(** N(), M(), INT(), ILF(), IOA(), IFF(), energies(): ProbabilityTableBlock.hpp:39-138 *)
Definition un_word bm (v : view) (k : Z) : outcome Z := if vempty v then Ok 0 else ixss bm v k.
Definition un_N bm v : outcome Z := n <- un_word bm v 1 ;; Ok (u32 n).
Definition un_M bm v : outcome Z := n <- un_word bm v 2 ;; Ok (u32 n).
Definition un_INT bm v : outcome Z := n <- un_word bm v 3 ;; Ok (u32 n).
Definition un_ILF bm v : outcome Z := un_word bm v 4.
Definition un_IOA bm v : outcome Z := un_word bm v 5.
Definition un_IFF bm v : outcome Z := n <- un_word bm v 6 ;; Ok (u32 n).
Definition un_energies bm v : outcome (list double) := n <- un_N bm v ;; xssr bm v 7 n.
(** src/generateBlocks.hpp:1-15; [left] is an iterator, n the number of indices left *)
Fixpoint un_loop bm (v : view) (m left index : Z) (n : nat) : outcome (list ptable) :=
  match n with
  | O => Ok []
  | S n =>
      let right := adv left (6 * m) in
      e <- xss bm v (6 + index) ;;
      t <- tb_make (sub v left right) e m ;;
      r <- un_loop bm v m right (index + 1) n ;;
      Ok (t :: r)
  end.
Definition un_generateBlocks bm (v : view) : outcome unr :=
  m <- un_M bm v ;; n <- un_N bm v ;;
  ts <- un_loop bm v m (vbeg v + 6 + n) 1 (Z.to_nat n) ;;
  Ok (Unr v ts).
(** src/ctor.hpp:58-65 and 74-78 *)
Definition un_of bm interpolation inelastic absorption type tables : outcome unr :=
  l <- un_generateXSS interpolation inelastic absorption type tables ;; un_generateBlocks bm (own l).
Definition un_make bm (v : view) : outcome unr := un_generateBlocks bm v.
(** probabilityTable( index ), hpp:156-162; src/verifyIndex.hpp:1-11 *)
Definition un_probabilityTable bm (o : unr) (index : Z) : outcome ptable :=
  _ <- (if debug bm then n <- un_N bm (un_v o) ;; verifyIndex (u64 index) 1 n else Ok tt) ;; at_ (un_data o) index.

Definition un_shows bm (o : unr) (interpolation inelastic absorption type : Z) (is : list tb_in) : Prop :=
  let v := un_v o in
  un_N bm v = Ok (len is) /\ un_INT bm v = Ok interpolation /\ un_ILF bm v = Ok inelastic /\ un_IOA bm v = Ok absorption
  /\ un_IFF bm v = Ok type /\ un_energies bm v = Ok (map ti_e is)
  /\ (forall i, In i is -> un_M bm v = Ok (len (ti_p i)))
  /\ Forall2 (tb_shows bm) (un_data o) is
  /\ (forall k i, nth_error is k = Some i -> exists t, un_probabilityTable bm o (Z.of_nat k + 1) = Ok t /\ tb_shows bm t i)
  /\ (debug bm = true -> forall i, ~ 1 <= u64 i <= len is -> un_probabilityTable bm o i = Throw OutOfRange).

Definition un_layout (m interpolation inelastic absorption type : Z) (is : list tb_in) : list double :=
  [dbl (len is); dbl m; dbl interpolation; dbl inelastic; dbl absorption; dbl type] ++ map ti_e is ++ concat (map ti_layout is).

Lemma un_loop_has bm v m is : forall head es es' words left index,
  len head = 6 -> Forall (ti_valid m) is -> es' = map ti_e is -> 0 <= 6 * m < 2 ^ 63 ->
  has v (head ++ es ++ es' ++ words ++ concat (map ti_layout is)) ->
  left = vbeg v + 6 + len es + len es' + len words -> index = len es + 1 ->
  exists ts, un_loop bm v m left index (length is) = Ok ts /\ Forall2 (tb_shows bm) ts is.
Proof.
  induction is as [|i is IH]; intros head es es' words left index H6 HF -> Hm Hv -> ->.
  - exists []. split; [reflexivity|constructor].
  - inversion HF as [|? ? Hi HF']; subst. destruct (ti_len _ _ Hi) as [L1 L2]. cbn [map concat] in Hv.
    cbn [length un_loop]. rewrite adv_small by lia.
    rewrite (xss_at bm v (head ++ es) (ti_e i) (map ti_e is ++ words ++ ti_layout i ++ concat (map ti_layout is)))
      by (try (apply (has_eq _ _ _ Hv); las); rewrite len_app; lia).
    cbn [bind].
    set (left := vbeg v + 6 + len es + len (map ti_e (i :: is)) + len words).
    assert (El : left = vbeg v + 6 + len es + (1 + len (map ti_e is)) + len words) by (unfold left; cbn [map]; rewrite len_cons; reflexivity).
    assert (C : content (sub v left (left + 6 * m)) (ti_layout i)).
    { apply (sub_content v (head ++ es ++ ti_e i :: map ti_e is ++ words) (ti_layout i) (concat (map ti_layout is))).
      - apply (has_eq _ _ _ Hv). las.
      - rewrite !len_app, len_cons, len_app. lia.
      - rewrite !len_app, len_cons, len_app. lia. }
    destruct (tb_has bm _ m i Hi (content_has _ _ C)) as (o & Mo & _ & So). rewrite Mo. cbn [bind].
    destruct (IH head (es ++ [ti_e i]) (map ti_e is) (words ++ ti_layout i) (left + 6 * m) (len es + 1 + 1) H6 HF' eq_refl Hm) as (ts & Et & Ft).
    + apply (has_eq _ _ _ Hv). las.
    + rewrite !len_app. change (len [ti_e i]) with 1. lia.
    + rewrite len_app. change (len [ti_e i]) with 1. lia.
    + rewrite Et. cbn [bind]. eexists; split; [reflexivity|]. constructor; assumption.
Qed.

Lemma len_concat_ti m is : Forall (ti_valid m) is -> len (concat (map ti_layout is)) = len is * (6 * m).
Proof.
  induction 1 as [|i is Hi _ IH]; [reflexivity|]. cbn [map concat]. rewrite len_app, len_cons, IH. destruct (ti_len _ _ Hi) as [-> _]. ring.
Qed.

Lemma un_has bm v m int ilf ioa iff is :
  Forall (ti_valid m) is -> is <> [] -> 0 <= int < 2 ^ 31 -> - 2 ^ 31 <= ilf < 2 ^ 31 -> - 2 ^ 31 <= ioa < 2 ^ 31 -> 0 <= iff < 2 ^ 31 ->
  has v (un_layout m int ilf ioa iff is) ->
  exists o, un_make bm v = Ok o /\ un_v o = v /\ un_shows bm o int ilf ioa iff is.
Proof.
  intros HF Hne B1 B2 B3 B4 Hv. pose proof (has_bounds _ _ Hv) as B.
  assert (Lc := len_concat_ti m is HF).
  unfold un_layout in B. rewrite !len_app, len_map, Lc in B. rewrite !len_cons in B. change (len (@nil double)) with 0 in B.
  assert (Hm : 0 <= m). { destruct is as [|i r]; [congruence|]. inversion HF as [|? ? Hi _]. destruct (ti_len _ _ Hi) as [_ <-]. apply len_nonneg. }
  assert (Hl : 1 <= len is). { destruct is; [congruence|]. rewrite len_cons. pose proof (len_nonneg is). lia. }
  assert (Hm' : 0 <= 6 * m < 2 ^ 31) by nia.
  set (rest := map ti_e is ++ concat (map ti_layout is)) in *.
  assert (Hv' : has v ([dbl (len is); dbl m; dbl int; dbl ilf; dbl ioa; dbl iff] ++ rest)) by exact Hv.
  assert (Em : vempty v = false) by (apply (has_cons_nonempty _ _ _ Hv')).
  assert (W1 : un_word bm v 1 = Ok (len is)) by (unfold un_word; rewrite Em; apply (ixss_at bm v [] (len is) ([dbl m; dbl int; dbl ilf; dbl ioa; dbl iff] ++ rest)); [exact Hv'|reflexivity|lia]).
  assert (W2 : un_word bm v 2 = Ok m) by (unfold un_word; rewrite Em; apply (ixss_at bm v [dbl (len is)] m ([dbl int; dbl ilf; dbl ioa; dbl iff] ++ rest)); [exact Hv'|reflexivity|lia]).
  assert (W3 : un_word bm v 3 = Ok int) by (unfold un_word; rewrite Em; apply (ixss_at bm v [dbl (len is); dbl m] int ([dbl ilf; dbl ioa; dbl iff] ++ rest)); [exact Hv'|reflexivity|lia]).
  assert (W4 : un_word bm v 4 = Ok ilf) by (unfold un_word; rewrite Em; apply (ixss_at bm v [dbl (len is); dbl m; dbl int] ilf ([dbl ioa; dbl iff] ++ rest)); [exact Hv'|reflexivity|lia]).
  assert (W5 : un_word bm v 5 = Ok ioa) by (unfold un_word; rewrite Em; apply (ixss_at bm v [dbl (len is); dbl m; dbl int; dbl ilf] ioa ([dbl iff] ++ rest)); [exact Hv'|reflexivity|lia]).
  assert (W6 : un_word bm v 6 = Ok iff) by (unfold un_word; rewrite Em; apply (ixss_at bm v [dbl (len is); dbl m; dbl int; dbl ilf; dbl ioa] iff rest); [exact Hv'|reflexivity|lia]).
  assert (N : un_N bm v = Ok (len is)) by (unfold un_N; rewrite W1; cbn [bind]; rewrite u32_small by lia; reflexivity).
  assert (M : un_M bm v = Ok m) by (unfold un_M; rewrite W2; cbn [bind]; rewrite u32_small by lia; reflexivity).
  destruct (un_loop_has bm v m is [dbl (len is); dbl m; dbl int; dbl ilf; dbl ioa; dbl iff] [] (map ti_e is) [] (vbeg v + 6 + len is) 1) as (ts & Et & Ft);
    try reflexivity; try exact HF; try lia; try exact Hv'.
  { change (len (@nil double)) with 0. rewrite len_map. lia. }
  unfold un_make, un_generateBlocks. rewrite M. cbn [bind]. rewrite N. cbn [bind].
  replace (Z.to_nat (len is)) with (length is) by (unfold len; lia). rewrite Et. cbn [bind].
  eexists; split; [reflexivity|]. split; [reflexivity|]. unfold un_shows. cbn [un_v un_data].
  split; [exact N|]. split; [unfold un_INT; rewrite W3; cbn [bind]; rewrite u32_small by lia; reflexivity|].
  split; [exact W4|]. split; [exact W5|]. split; [unfold un_IFF; rewrite W6; cbn [bind]; rewrite u32_small by lia; reflexivity|].
  split; [|split; [|split; [exact Ft|split]]].
  - unfold un_energies. rewrite N. cbn [bind].
    apply (xssr_has bm v [dbl (len is); dbl m; dbl int; dbl ilf; dbl ioa; dbl iff] (map ti_e is) (concat (map ti_layout is))); [exact Hv'|reflexivity|symmetry; apply len_map].
  - intros i Hi. rewrite M. rewrite Forall_forall in HF. destruct (ti_len _ _ (HF i Hi)) as [_ E]. rewrite E. reflexivity.
  - intros k i Hk. pose proof (nth_error_len _ _ _ Hk) as Bk. unfold un_probabilityTable. cbn [un_v un_data]. rewrite N.
    assert (Cc : (if debug bm then n <- Ok (len is) ;; verifyIndex (u64 (Z.of_nat k + 1)) 1 n else Ok tt) = Ok tt)
      by (rewrite u64_small by lia; apply (check_verifyIndex bm (Z.of_nat k + 1) 1 (len is)); lia).
    rewrite Cc. cbn [bind].
    assert (exists t, nth_error ts k = Some t /\ tb_shows bm t i) as (t & Ht & St).
    { clear - Ft Hk. revert k Hk. induction Ft as [|t i' ts is' H1 _ IH]; intros [|k] Hk; try discriminate.
      - injection Hk as <-. exists t. auto.
      - cbn [nth_error] in *. apply IH; exact Hk. }
    exists t. split; [|exact St]. apply (at_has ts k t _ Ht eq_refl). pose proof (Forall2_len _ _ _ Ft). unfold len in *. lia.
  - intros Hd i Hi. unfold un_probabilityTable. cbn [un_v]. rewrite Hd, N. cbn [bind]. unfold verifyIndex, throw_if.
    destruct ((u64 i <? 1) || (len is <? u64 i)) eqn:E; [reflexivity|lia].
Qed.

(** The words generated from objects that show the tables [is]. *)
Lemma un_generateXSS_ok m int ilf ioa iff is ts :
  is <> [] -> Forall2 (fun t i => content (ad_v (tb_a t)) (ti_layout i) /\ tb_incidentEnergy t = ti_e i /\ tb_numberBins t = m) ts is ->
  un_generateXSS int ilf ioa iff ts = Ok (un_layout m int ilf ioa iff is).
Proof.
  intros Hne HF. assert (E1 : mapM (fun t => xss_all (ad_v (tb_a t))) ts = Ok (map ti_layout is)).
  { clear Hne. induction HF as [|t i ts is [C _] _ IH]; [reflexivity|]. cbn [mapM map]. rewrite (xss_all_content _ _ C). cbn [bind]. rewrite IH. reflexivity. }
  assert (E2 : map tb_incidentEnergy ts = map ti_e is).
  { clear Hne E1. induction HF as [|t i ts is [_ [E _]] _ IH]; [reflexivity|]. cbn [map]. congruence. }
  unfold un_generateXSS. rewrite E1, E2. pose proof (Forall2_len _ _ _ HF) as L.
  destruct HF as [|t i ts is (_ & _ & Em) _]; [congruence|]. cbn [bind]. rewrite Em. unfold un_layout, len. rewrite L. reflexivity.
Qed.

(** * DelayedNeutronPrecursorBlock *)

Record bdd := Bdd { bd_v : view; bd_npcr : Z; bd_data : list precursorData }.
(** src/generateXSS.hpp:1-14: the words of the groups, in the order given *)
Definition bd_generateXSS (groups : list (list double)) : list double := concat groups.
(** src/generateBlocks.hpp:1-18 *)
Fixpoint bd_loop bm (v : view) (left locator index : Z) (n : nat) : outcome (list precursorData) :=
  match n with
  | O => Ok []
  | S n =>
      nr <- ixss_size bm v (locator + 1) ;;
      ne <- ixss_size bm v (locator + 1 + 2 * nr + 1) ;;
      let locator := u64 (locator + (2 + 2 * nr + 2 * ne + 1)) in
      let right := adv (vbeg v) (locator - 1) in
      d <- dp_make bm (sub v left right) index ;;
      r <- bd_loop bm v right locator (index + 1) n ;;
      Ok (d :: r)
  end.
Definition bd_generateBlocks bm (v : view) (npcr : Z) : outcome bdd :=
  ds <- bd_loop bm v (vbeg v) 1 1 (Z.to_nat npcr) ;; Ok (Bdd v npcr ds).
(** src/ctor.hpp:6-12, 73-74 and 83-87 *)
Definition bd_of bm (groups : list (list double)) : outcome bdd :=
  bd_generateBlocks bm (own (bd_generateXSS groups)) (u32 (len groups)).
Definition bd_make bm (v : view) (npcr : Z) : outcome bdd := bd_generateBlocks bm v npcr.
(** precursorGroupData( index ), hpp:68-74; src/verifyGroupIndex.hpp:1-11 *)
Definition bd_NPCR (o : bdd) : Z := bd_npcr o.
Definition bd_precursorGroupData bm (o : bdd) (index : Z) : outcome precursorData :=
  _ <- check bm (verifyIndex (u64 index) 1 (bd_npcr o)) ;; at_ (bd_data o) index.

(** What a user supplies for a group (besides its number). *)
Record bd_in := BdIn { bi_dec : double; bi_nbt : list Z; bi_int : list Z; bi_e : list double; bi_p : list double }.
Definition bi_words (i : bd_in) : outcome (list double) := dp_generateXSS (bi_dec i) (bi_nbt i) (bi_int i) (bi_e i) (bi_p i).
Definition bi_layout (i : bd_in) : list double := bi_dec i :: td_layout (bi_nbt i) (bi_int i) (bi_e i) (bi_p i).
Definition bi_valid (i : bd_in) : Prop := len (bi_int i) = len (bi_nbt i) /\ len (bi_p i) = len (bi_e i).
(** The group number shown is the position in the block. *)
Definition bi_shows bm (number : Z) (o : precursorData) (i : bd_in) : Prop :=
  dp_number o = number /\ dp_DEC bm o = Ok (bi_dec i) /\ td_shows bm (pt_tab (dp_tab o)) (bi_nbt i) (bi_int i) (bi_e i) (bi_p i).
Definition bd_shows bm (o : bdd) (is : list bd_in) : Prop :=
  bd_NPCR o = len is /\ length (bd_data o) = length is
  /\ (forall k i, nth_error is k = Some i -> exists d, bd_precursorGroupData bm o (Z.of_nat k + 1) = Ok d /\ bi_shows bm (Z.of_nat k + 1) d i)
  /\ (debug bm = true -> forall i, ~ 1 <= u64 i <= len is -> bd_precursorGroupData bm o i = Throw OutOfRange).

Lemma bi_words_ok i l : bi_words i = Ok l -> bi_valid i /\ l = bi_layout i.
Proof.
  unfold bi_words, dp_generateXSS. intros H. destruct (pt_generateXSS_inv _ _ _ _ _ _ H) as (E1 & E2 & ->).
  split; [split; assumption|reflexivity].
Qed.

Lemma len_bi_layout i : bi_valid i -> len (bi_layout i) = 3 + 2 * len (bi_nbt i) + 2 * len (bi_e i).
Proof. intros [E1 E2]. unfold bi_layout. rewrite len_cons, len_td_layout by assumption. lia. Qed.

Lemma bd_loop_has bm v is : forall words left locator index,
  Forall bi_valid is -> has v (words ++ concat (map bi_layout is)) -> left = vbeg v + len words -> locator = len words + 1 ->
  exists ds, bd_loop bm v left locator index (length is) = Ok ds /\ length ds = length is
    /\ forall k i d, nth_error is k = Some i -> nth_error ds k = Some d -> bi_shows bm (index + Z.of_nat k) d i.
Proof.
  induction is as [|i is IH]; intros words left locator index HF Hv -> ->.
  - exists []. split; [reflexivity|]. split; [reflexivity|]. intros [|k] ? ? H; discriminate.
  - inversion HF as [|? ? Hi HF']; subst. cbn [map concat length bd_loop] in *.
    pose proof (len_bi_layout i Hi) as L. pose proof (has_bounds _ _ Hv) as B. rewrite !len_app in B.
    pose proof (len_nonneg words); pose proof (len_nonneg (concat (map bi_layout is))); pose proof (len_nonneg (bi_nbt i)); pose proof (len_nonneg (bi_e i)).
    destruct Hi as [E1 E2]. assert (Hi : bi_valid i) by (split; assumption).
    assert (Ht : has (sub v (vbeg v + len (words ++ [bi_dec i])) (vend v)) (td_layout (bi_nbt i) (bi_int i) (bi_e i) (bi_p i))).
    { apply (sub_has v (words ++ [bi_dec i])); [|reflexivity|].
      - apply (has_app _ _ (concat (map bi_layout is))). apply (has_eq _ _ _ Hv). unfold bi_layout. las.
      - rewrite len_app. change (len [bi_dec i]) with 1. rewrite len_td_layout by assumption. lia. }
    assert (Nr : ixss_size bm v (len words + 1 + 1) = Ok (len (bi_nbt i))).
    { eapply (ixss_size_at bm v (words ++ [bi_dec i]) (len (bi_nbt i))); [|rewrite len_app; change (len [bi_dec i]) with 1; lia|lia].
      apply (has_eq _ _ _ Hv). unfold bi_layout, td_layout. las. }
    assert (Ne : ixss_size bm v (len words + 1 + 1 + 2 * len (bi_nbt i) + 1) = Ok (len (bi_e i))).
    { eapply (ixss_size_at bm v (words ++ [bi_dec i; dbl (len (bi_nbt i))] ++ map dbl (bi_nbt i) ++ map dbl (bi_int i)) (len (bi_e i))).
      - apply (has_eq _ _ _ Hv). unfold bi_layout, td_layout. las.
      - rewrite !len_app, !len_map, !len_cons. change (len (@nil double)) with 0. lia.
      - lia. }
    rewrite Nr. cbn [bind]. rewrite Ne. cbn [bind].
    rewrite u64_small by lia. rewrite adv_small by lia.
    set (loc := len words + 1 + (2 + 2 * len (bi_nbt i) + 2 * len (bi_e i) + 1)).
    assert (El : loc = len words + len (bi_layout i) + 1) by (unfold loc; lia).
    assert (C : content (sub v (vbeg v + len words) (vbeg v + (loc - 1))) (bi_layout i)).
    { apply (sub_content v words (bi_layout i) (concat (map bi_layout is))); [exact Hv|reflexivity|lia]. }
    destruct (dp_has bm _ index (bi_dec i) (bi_nbt i) (bi_int i) (bi_e i) (bi_p i) E1 E2 (content_has _ _ C)) as (o & Mo & _ & O1 & O2 & O3).
    rewrite Mo. cbn [bind].
    destruct (IH (words ++ bi_layout i) (vbeg v + (loc - 1)) loc (index + 1) HF') as (ds & Ed & Ld & Sd).
    + apply (has_eq _ _ _ Hv). las.
    + rewrite len_app. lia.
    + rewrite len_app. lia.
    + rewrite Ed. cbn [bind]. eexists; split; [reflexivity|]. split; [cbn [length]; lia|].
      intros [|k] i' d Hk Hd; cbn [nth_error] in *.
      * injection Hk as <-. injection Hd as <-. split; [lia|]. split; assumption.
      * replace (index + Z.of_nat (S k)) with (index + 1 + Z.of_nat k) by lia. apply Sd; assumption.
Qed.

Lemma bd_has bm v is : Forall bi_valid is -> has v (concat (map bi_layout is)) ->
  exists o, bd_make bm v (len is) = Ok o /\ bd_v o = v /\ bd_shows bm o is.
Proof.
  intros HF Hv. destruct (bd_loop_has bm v is [] (vbeg v) 1 1 HF Hv) as (ds & Ed & Ld & Sd); [change (len (@nil double)) with 0; lia|reflexivity|].
  unfold bd_make, bd_generateBlocks. replace (Z.to_nat (len is)) with (length is) by (unfold len; lia). rewrite Ed. cbn [bind].
  eexists; split; [reflexivity|]. split; [reflexivity|]. split; [reflexivity|]. split; [exact Ld|]. unfold bd_precursorGroupData. cbn [bd_npcr bd_data].
  assert (Bi : len is < 2 ^ 31).
  { pose proof (has_bounds _ _ Hv) as B. assert (len is <= len (concat (map bi_layout is))); [|lia].
    clear - HF. induction HF as [|i is Hi _ IH]; [reflexivity|]. cbn [map concat]. rewrite len_app, len_cons, (len_bi_layout i Hi).
    pose proof (len_nonneg (bi_nbt i)); pose proof (len_nonneg (bi_e i)). lia. }
  split.
  - intros k i Hk. pose proof (nth_error_len _ _ _ Hk) as Bk. rewrite u64_small by lia. rewrite check_verifyIndex by lia. cbn [bind].
    destruct (nth_error ds k) as [d|] eqn:Ek; [|exfalso; apply nth_error_None in Ek; unfold len in *; lia].
    exists d. split; [apply (at_has ds k d _ Ek eq_refl); unfold len in *; lia|]. replace (Z.of_nat k + 1) with (1 + Z.of_nat k) by lia. apply Sd; assumption.
  - intros Hd i Hi. unfold check, verifyIndex, throw_if. rewrite Hd. destruct ((u64 i <? 1) || (len is <? u64 i)) eqn:E; [reflexivity|lia].
Qed.
