(** Rent: what is opened has paid it, and only closing moves lamports. *)
From Verif Require Import Base BaseProofs Fees ListSum Queue Codec Critbit CritbitSlab Market Matching MatchSteps MatchSpec Ledger Slots Core CoreInv CoreNew CoreSettle Instr InstrProofs
  Store Process StoreProofs World WorldInv WorldLoad WorldRun WorldInit WorldMain WorldSpec WorldAuth WorldRights WorldSizes.

Section Rent.
Variable e : env.
Hypothesis EO : env_ok e.
Notation D := (dexd e).
Theorem opening_pays s c i ms s' x oo : anytime e s -> process e c s i ms = Ok s' -> D s' x = Some (DOO oo) -> (forall o, D s x <> Some (DOO o)) ->
  a_len (sget s x) = 3228 /\ c_exempt c (a_lamports (sget s x)) (a_len (sget s x)) = true.
Proof.
  intros AT H HX NX. pose proof (anytime_struct e EO s AT) as W.
  assert (G : forall k m m' z, deed e s s' k m m' z -> exists o, z = Some (x, o)).
  { intros k m m' z DE. destruct z as [[a o]|].
    - destruct (Z.eq_dec x a) as [->|N]; [eauto|]. exfalso. apply (NX oo). rewrite <- HX. symmetry. eapply de_oos; [exact DE|eauto|intros ? ? [= <- <-]; assumption].
    - exfalso. apply (NX oo). rewrite <- HX. symmetry. eapply de_oos; [exact DE|eauto|discriminate]. }
  assert (NL : forall k o, ~ live (D s) k x o) by (intros k o [L _]; exact (NX o L)).
  assert (OP : forall m w c0 au o, opened e s m x w (Some c0) au o -> c0 = c -> a_len (sget s x) = 3228 /\ c_exempt c (a_lamports (sget s x)) (a_len (sget s x)) = true).
  { intros m w c0 au o (_ & _ & L & u & c1 & _ & [= <-] & E & _) ->. split; [exact L|exact E]. }
  assert (RP : forall ixs, proc_replace e c s ixs ms <> Ok s').
  { intros ixs R. destruct (replace_deed e EO _ _ _ _ _ W R) as (k & x0 & w & m & m' & o & o' & _ & _ & _ & _ & _ & DE & LV & _). destruct (G _ _ _ _ DE) as (? & [= -> ->]). exact (NL _ _ LV). }
  pose proof (process_act e EO c s i ms s' W H) as AC.
  assert (NO : needs_open i = true).
  { destruct AC.
    - subst. congruence.
    - exfalso. apply (NX oo). auto.
    - exfalso. destruct (Z.eq_dec x (m_event_q m)) as [->|N]; [destruct H6 as (? & ? & _ & ?); congruence|]. destruct (H7 x N) as [E|(_ & o & ? & (L & _) & _)]; [apply (NX oo); congruence|apply (NX o); assumption].
    - destruct (G _ _ _ _ H0) as (o & [= -> ->]). destruct H3 as [LV|(_ & NO & _)]; [destruct (NL _ _ LV)|exact NO].
    - destruct (G _ _ _ _ H1) as (o & [= -> ->]). destruct (NL _ _ H3).
    - destruct (G _ _ _ _ H2) as (o & E). discriminate.
    - destruct (G _ _ _ _ H1) as (o & E). discriminate.
    - destruct (G _ _ _ _ H2) as (o & E). discriminate. }
  destruct i; try discriminate NO; cbn [process] in H.
  - destruct (order_deed e EO _ _ _ _ _ W H) as (k & x0 & w & m & m' & o & o' & _ & K1 & _ & _ & _ & DE & _). destruct (G _ _ _ _ DE) as (? & [= -> ->]).
    destruct (new_order_ran e s c _ ms s' W H) as (k1 & xx & payer & w1 & m1 & bids & asks & q & rq & t & o1 & pt & oo' & rq' & oo2 & dep & R).
    destruct (rn_keys _ _ _ _ _ _ _ _ _ _ _ _ _ _ _ _ _ _ _ _ _ _ R) as (rest & KM). rewrite (key_map _ _ _ KM) in K1. cbn [nth_error] in K1. injection K1 as ->.
    destruct (rn_oo _ _ _ _ _ _ _ _ _ _ _ _ _ _ _ _ _ _ _ _ _ _ R) as [LV|O]; [destruct (NL _ _ LV)|eapply OP; [exact O|reflexivity]].
  - destruct (take_deed e EO _ _ _ _ W H) as (k & m & m' & _ & _ & _ & DE & _). destruct (G _ _ _ _ DE) as (? & E). discriminate.
  - destruct (init_oo_ran e s c ms s' W H) as (k & x0 & w & m & au & o & rest & _ & _ & _ & _ & _ & LO & _ & ->).
    destruct (Z.eq_dec x x0) as [->|N].
    + destruct LO as [LV|O]; [destruct (NL _ _ LV)|eapply OP; [exact O|reflexivity]].
    + exfalso. apply (NX oo). rewrite <- HX. unfold dexd. rewrite put_prog, put_data_eq. replace (x =? x0) with false by lia. reflexivity.
  - destruct (RP _ H).
  - destruct (RP _ H).
Qed.
Theorem market_pays s c ix ms s' : process e c s (IInitMarket ix) ms = Ok s' ->
  forall n x, (1 <= n <= 8)%nat -> key_at ms n = Some x -> c_exempt c (a_lamports (sget s x)) (a_len (sget s x)) = true.
Proof.
  cbn [process]. unfold proc_init_market. intros H n x Hn K. unfold key_at in K. rewrite <- nth_error_map in K.
  destruct (map mk ms) as [|k [|rqa [|eqa [|ba [|aa [|cv [|pv [|cm [|pm [|rent auths]]]]]]]]]] eqn:EK; try discriminate.
  apply rbind_ok in H. destruct H as (u0 & _ & H). apply rbind_ok in H. destruct H as ([] & H1 & _). pose proof (each_ok _ _ H1) as F.
  assert (I : In x [rqa; eqa; ba; aa; cv; pv; cm; pm]).
  { do 9 (destruct n as [|n]; [cbn [nth_error] in K; try lia; injection K as <-; cbn; auto 9; fail|]). lia. }
  specialize (F x I). unfold check_exempt in F. apply check_ok in F. exact F.
Qed.
Theorem sizes_kept s c i ms s' : process e c s i ms = Ok s' -> forall x, a_len (sget s' x) = a_len (sget s x) /\ a_prog (sget s' x) = a_prog (sget s x) /\ (i <> ICloseOO -> a_lamports (sget s' x) = a_lamports (sget s x)).
Proof.
  intros H x. split; [exact (process_len e c s i ms s' H x)|]. 
  destruct i; try (destruct (process_kept e _ _ _ _ _ H) as [l p m q]; [discriminate|discriminate|]; split; [apply p|intros _; apply m]).
  - cbn [process] in H. destruct (init_ran e _ _ _ _ _ H) as (k & rqa & eqa & ba & aa & cv & pv & cm & pm & p & auths & R). rewrite (ri_store _ _ _ _ _ _ _ _ _ _ _ _ _ _ _ _ R). rewrite !put_prog, !put_lam. split; [reflexivity|intros _; reflexivity].
  - split; [|congruence]. cbn [process] in H. unfold proc_close in H. destruct ms as [|oa [|ow [|dest [|mkt [|]]]]]; try discriminate. repeat (apply rbind_ok in H; destruct H as (? & _ & H)). injection H as <-. rewrite put_prog, !sget_lam. 
    repeat match goal with |- context [?a =? ?b] => destruct (Z.eqb_spec a b) end; cbn [set_lamports a_prog]; congruence.
Qed.
End Rent.
