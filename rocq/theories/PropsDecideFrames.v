(** C50, continued: the frames of TYR. *)
From Coq Require Import ZArith Bool List Lia.
From Coq Require Import ZifyBool ZifyNat.
From Verif Require Import PropLemmasBasic Truncated NuBlock FrameBlock Indexed Accepted Agree Decide PropsDecide DecideMore PropsDecideNu PropsDecideProbability.
Import ListNotations.
Open Scope Z_scope.

(** The multiplicity of reaction [i] is the number at word [i] without its sign; the sign says whether the distributions are in the centre-of-mass frame. *)
Theorem C50_block_TYR_frames v n (m : Z -> Z) : inside v -> 0 <= n < 2 ^ 31 -> n <= size v ->
  (forall i, 1 <= i <= n -> states v i (m i) /\ - 2 ^ 31 < m i < 2 ^ 31 /\ m i <> 0) ->
  forall bm, exists o, ty_make bm v n = Ok o /\ ty_NTR o = n
    /\ forall i, 1 <= i <= n -> ty_frame bm o i = Ok (if m i <? 0 then CentreOfMass else Laboratory) /\ ty_mult bm o i = Ok (Z.abs (m i)).
Proof.
  intros I Hn L Hm bm. unfold ty_make. rewrite verify_enough by assumption. cbn [bind]. unfold ty_generateBlocks.
  match goal with |- context [mapM ?f _] =>
    destruct (mapM_total f (seqZ 1 (Z.to_nat n))) as [ds E]; [|assert (R : forall i p, 1 <= i <= n -> f i = Ok p -> p = (if m i <? 0 then CentreOfMass else Laboratory, Z.abs (m i)))] end.
  - intros i Hi. apply in_seqZ in Hi. destruct (Hm i ltac:(lia)) as (S & B & NZ). destruct (states_holds v i (m i) I S ltac:(lia)) as (w & W & Hw).
    rewrite (xss_word bm v i I) by lia. rewrite W. cbn [bind]. unfold ixss. rewrite (xss_word bm v i I) by lia. rewrite W. cbn [bind]. rewrite (to_int_whole w _ Hw) by lia. cbn [bind].
    unfold abs_int. destruct (Z.eqb_spec (m i) (- 2 ^ 31)); [lia|]. eexists. reflexivity.
  - intros i p Hi F. destruct (Hm i ltac:(lia)) as (S & B & NZ). destruct (states_holds v i (m i) I S ltac:(lia)) as (w & W & Hw).
    rewrite (xss_word bm v i I) in F by lia. rewrite W in F. cbn [bind] in F. unfold ixss in F. rewrite (xss_word bm v i I) in F by lia. rewrite W in F. cbn [bind] in F.
    rewrite (to_int_whole w _ Hw) in F by lia. cbn [bind] in F. unfold abs_int in F. destruct (Z.eqb_spec (m i) (- 2 ^ 31)); [lia|]. cbn [bind] in F. apply Ok_inj in F. subst p.
    rewrite u32_small by lia. destruct (Z.ltb_spec (m i) 0) as [Lt|Ge].
    + rewrite (whole_negative w (m i) Hw Lt). reflexivity.
    + rewrite (whole_positive w (m i) Hw ltac:(lia)). reflexivity.
  - pose proof (mapM_length _ _ _ E) as Ln. rewrite seqZ_length in Ln. rewrite E. cbn [bind]. eexists. split; [reflexivity|]. split; [reflexivity|]. intros i Hi.
    destruct (at_in ds i) as [p P]; [unfold len; lia|lia|]. assert (Hi64 : 1 <= i < 2 ^ 64) by lia. pose proof (R i p Hi (at_mapM _ _ _ _ _ Hi64 E P)) as Y. subst p.
    unfold at_ in P. rewrite u64_small in P by lia. destruct (nth_error ds (Z.to_nat (i - 1))) as [q|] eqn:Nd; [|discriminate]. apply Ok_inj in P. subst q.
    unfold ty_mult, ty_frame, at_, check. cbn [ty_ntr ty_mults ty_frames]. rewrite verify_in by lia. rewrite u64_small by lia. rewrite !nth_error_map, Nd. cbn [option_map fst snd].
    destruct (debug bm); split; reflexivity.
Qed.
Print Assumptions C50_block_TYR_frames.

(** Fission in the laboratory frame, a reaction in the centre-of-mass frame *)
Example TYR_frames_met : let v := own (map dbl [19; -1]) in exists o, ty_make Debug v 2 = Ok o
  /\ ty_frame Debug o 1 = Ok Laboratory /\ ty_mult Debug o 1 = Ok 19 /\ ty_frame Debug o 2 = Ok CentreOfMass /\ ty_mult Debug o 2 = Ok 1.
Proof.
  intros v. assert (I : inside v) by (apply own_inside; reflexivity).
  destruct (C50_block_TYR_frames v 2 (fun i => if i =? 1 then 19 else -1) I ltac:(lia) ltac:(vm_compute; discriminate)) with (bm := Debug) as (o & E & _ & F).
  - intros i Hi. assert (C : i = 1 \/ i = 2) by lia. destruct C as [-> | ->]; (split; [cbn [Z.eqb Pos.eqb]; stated|cbn; lia]).
  - exists o. split; [exact E|]. destruct (F 1 ltac:(lia)) as [F1 F2]. destruct (F 2 ltac:(lia)) as [F3 F4]. auto.
Qed.
