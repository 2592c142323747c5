(** Who processes the events, and in which portions, makes no difference. *)
From Verif Require Import Base BaseProofs Fees ListSum Queue QueueProofs Codec CodecProofs Critbit CritbitSlab Market Matching MatchSteps MatchRefine Ledger MatchSpec Slots Core CoreInv CoreNew Instr Store Process StoreProofs World WorldInv WorldLoad WorldRun WorldMain WorldSpec WorldFacts WorldCrank CrankAnySpec.

Section CrankAny.
Variable e : env.
Hypothesis EO : env_ok e.
Notation D := (dexd e).

(** The first [n] events, whoever supplies the accounts. *)
Fixpoint drain (m : market) (n : nat) (s : store) (q : queue event) : res (store * queue event) :=
  match n with
  | O => Ok (s, q)
  | S n' =>
      oev <- peek_front q ;;
      match oev with
      | None => Err EAssert
      | Some ev =>
          v <- event_as_view ev ;;
          oo <- load_orders e s m (e_owner ev) None None None ;;
          oo' <- consume_event oo v ;;
          r <- pop_front q ;;
          q' <- ok_or r EConsumeFailure ;;
          drain m n' (put_data s (e_owner ev) (DOO oo')) (fst q')
      end
  end.
Lemma loop_drain m oos n : forall s q s' q', consume_loop e s m q oos n = Ok (s', q') -> exists j, drain m j s q = Ok (s', q').
Proof.
  induction n as [|n IH]; intros s q s' q' H; cbn [consume_loop] in H; [exists 0%nat; exact H|].
  apply rbind_ok in H. destruct H as (oev & PK & H). destruct oev as [ev|]; [|exists 0%nat; exact H]. apply rbind_ok in H. destruct H as (v & VW & H).
  destruct (binary_search oos (e_owner ev)); [|exists 0%nat; exact H]. apply rbind_ok in H. destruct H as (oo & LO & H). apply rbind_ok in H. destruct H as (oo' & CE & H). apply rbind_ok in H. destruct H as (r & PO & H).
  apply rbind_ok in H. destruct H as (q1 & HQ & H). apply IH in H. destruct H as (j & H). exists (S j). cbn [drain]. rewrite PK. cbn [rbind]. rewrite VW. cbn [rbind]. rewrite LO. cbn [rbind]. rewrite CE. cbn [rbind]. rewrite PO. cbn [rbind]. rewrite HQ. exact H.
Qed.
Lemma drain_app m a b : forall s q, drain m (a + b) s q = ('(s1, q1) <- drain m a s q ;; drain m b s1 q1).
Proof.
  induction a as [|a IH]; intros s q; [reflexivity|]. cbn [Nat.add drain]. destruct (peek_front q) as [oev| |]; cbn [rbind]; try reflexivity. destruct oev as [ev|]; [|reflexivity].
  destruct (event_as_view ev) as [v| |]; cbn [rbind]; try reflexivity. destruct (load_orders e s m (e_owner ev) None None None) as [oo| |]; cbn [rbind]; try reflexivity.
  destruct (consume_event oo v) as [oo'| |]; cbn [rbind]; try reflexivity. destruct (pop_front q) as [r| |]; cbn [rbind]; try reflexivity. destruct (ok_or r EConsumeFailure) as [q'| |]; cbn [rbind]; try reflexivity. apply IH.
Qed.
Lemma drain_len m n : forall s q s' q', q_ok q -> drain m n s q = Ok (s', q') -> (length (q_list q) = n + length (q_list q'))%nat.
Proof.
  induction n as [|n IH]; intros s q s' q' Q H; cbn [drain] in H; [injection H as _ <-; reflexivity|].
  apply rbind_ok in H. destruct H as (oev & PK & H). destruct oev as [ev|]; [|discriminate]. apply rbind_ok in H. destruct H as (v & VW & H).
  apply rbind_ok in H. destruct H as (oo & LO & H). apply rbind_ok in H. destruct H as (oo' & CE & H). apply rbind_ok in H. destruct H as (r & PO & H).
  apply rbind_ok in H. destruct H as (q1 & HQ & H). pose proof (pop_front_spec q Q) as S. destruct (q_list q) as [|x l]; [destruct S as [S _]; rewrite S in PO; injection PO as <-; discriminate|].
  destruct S as (_ & q2 & P2 & Q2 & E2 & _). rewrite P2 in PO. injection PO as <-. cbn [ok_or] in HQ. injection HQ as <-. cbn [fst] in H. apply (IH _ _ _ _ Q2) in H. rewrite E2 in H. cbn [length]. lia.
Qed.
Lemma drain_fixed m y n : forall s q s' q', (a_prog (sget s y) = e_prog e -> forall oo, a_data (sget s y) <> DOO oo) -> drain m n s q = Ok (s', q') -> sget s' y = sget s y.
Proof.
  induction n as [|n IH]; intros s q s' q' NO H; cbn [drain] in H; [congruence|].
  apply rbind_ok in H. destruct H as (oev & PK & H). destruct oev as [ev|]; [|discriminate]. apply rbind_ok in H. destruct H as (v & VW & H).
  apply rbind_ok in H. destruct H as (oo & LO & H). apply rbind_ok in H. destruct H as (oo' & CE & H). apply rbind_ok in H. destruct H as (r & PO & H).
  apply rbind_ok in H. destruct H as (q1 & HQ & H). destruct (load_orders_none e _ _ _ _ LO) as (P1 & oo0 & P2).
  assert (N : y <> e_owner ev) by (intros ->; exact (NO P1 _ P2)).
  assert (E : sget (put_data s (e_owner ev) (DOO oo')) y = sget s y) by (rewrite sget_put; replace (y =? e_owner ev) with false by lia; reflexivity).
  rewrite (IH _ _ _ _ ltac:(rewrite E; exact NO) H). exact E.
Qed.
Lemma drain_at_q m z q0 d : D z (m_event_q m) = Some (DEventQ d) -> forall n s q, sget s (m_event_q m) = sget z (m_event_q m) ->
  drain m n (put_data s (m_event_q m) (DEventQ q0)) q = ('(s1, q1) <- drain m n s q ;; Ok (put_data s1 (m_event_q m) (DEventQ q0), q1)).
Proof.
  intros HZ. apply dexd_owned in HZ. destruct HZ as [HZ1 HZ2]. set (eqa := m_event_q m) in *. induction n as [|n IH]; intros s q ES; cbn [drain]; [reflexivity|].
  destruct (peek_front q) as [oev| |]; cbn [rbind]; try reflexivity. destruct oev as [ev|]; [|reflexivity].
  destruct (event_as_view ev) as [v| |] eqn:VW; cbn [rbind]; try reflexivity.
  set (x := e_owner ev) in *. destruct (Z.eq_dec x eqa) as [EX|NX].
  - assert (F : forall s0, a_prog (sget s0 eqa) = e_prog e -> (exists q2, a_data (sget s0 eqa) = DEventQ q2) -> load_orders e s0 m x None None None = Err EWrongOrdersAccount).
    { intros s0 F1 (q2 & F2). unfold load_orders. rewrite EX, F1, F2, Z.eqb_refl. reflexivity. }
    rewrite (F s), (F (put_data s eqa (DEventQ q0))); try reflexivity.
    + rewrite put_prog, ES. exact HZ1.
    + rewrite put_data_eq, Z.eqb_refl. eauto.
    + rewrite ES. exact HZ1.
    + rewrite ES. eauto.
  - assert (E : load_orders e (put_data s eqa (DEventQ q0)) m x None None None = load_orders e s m x None None None).
    { unfold load_orders. rewrite sget_put. replace (x =? eqa) with false by lia. reflexivity. }
    rewrite E. destruct (load_orders e s m x None None None) as [oo| |] eqn:LO; cbn [rbind]; try reflexivity. destruct (consume_event oo v) as [oo'| |]; cbn [rbind]; try reflexivity.
    destruct (pop_front q) as [r| |]; cbn [rbind]; try reflexivity. destruct (ok_or r EConsumeFailure) as [q'| |]; cbn [rbind]; try reflexivity.
    rewrite (put_comm e EO).
    + apply IH. rewrite sget_put. replace (eqa =? x) with false by lia. exact ES.
    + lia.
    + rewrite ES. exact HZ1.
    + apply (load_orders_none e _ _ _ _ LO).
Qed.

(** One transaction. *)
Lemma crank_drain_one s k m q c i ms oos n s1 : D s k = Some (DMarket m) -> D s (m_event_q m) = Some (DEventQ q) -> crank i ms k (m_event_q m) oos n -> process e c s i ms = Ok s1 ->
  exists j s' q', drain m j s q = Ok (s', q') /\ s1 = put_data s' (m_event_q m) (DEventQ q').
Proof.
  intros HM HQ (NE & _ & CR) H.
  assert (X : exists ks, consume_with e s m (m_event_q m) ks n = Ok s1).
  { destruct CR as [[-> (a & b & E)]|[-> (a & E)]]; cbn [process] in H.
    - unfold proc_consume in H. assert (R : map mk (rev ms) = b :: a :: m_event_q m :: k :: rev oos) by (rewrite map_rev, E, rev_app_distr; reflexivity).
      destruct (rev ms) as [|z1 [|z2 [|eqa [|mkt [|z3 z4]]]]]; try discriminate. cbn [map] in R. injection R as _ _ EQ EK _.
      apply rbind_ok in H. destruct H as (m0 & LM & H). apply rbind_ok in H. destruct H as (? & _ & H). apply (load_market_ok e) in LM. destruct LM as [LM _]. rewrite EK in LM. rewrite EQ in H.
      assert (m0 = m) as -> by congruence. eexists. exact H.
    - unfold proc_consume_perm in H. assert (R : map mk (rev ms) = a :: m_event_q m :: k :: rev oos) by (rewrite map_rev, E, rev_app_distr; reflexivity).
      destruct (rev ms) as [|z1 [|eqa [|mkt [|z3 z4]]]]; try discriminate. cbn [map] in R. injection R as _ EQ EK _.
      apply rbind_ok in H. destruct H as (m0 & LM & H). apply rbind_ok in H. destruct H as (? & _ & H). apply rbind_ok in H. destruct H as (? & _ & H). apply (load_market_ok e) in LM. destruct LM as [LM _]. rewrite EK in LM. rewrite EQ in H.
      assert (m0 = m) as -> by congruence. eexists. exact H. }
  destruct X as (ks & X). unfold consume_with, load_event_q in X. rewrite Z.eqb_refl in X. apply dexd_owned in HQ. destruct HQ as [_ HQ]. rewrite HQ in X. cbn [check rbind] in X.
  apply rbind_ok in X. destruct X as ([s' q'] & CL & X). injection X as <-. apply loop_drain in CL. destruct CL as (j & CL). eauto.
Qed.

(** Any number of them. *)
Lemma cranks_drain k m s s1 : cranks e k (m_event_q m) s s1 -> forall q, D s k = Some (DMarket m) -> D s (m_event_q m) = Some (DEventQ q) ->
  exists j s' q', drain m j s q = Ok (s', q') /\ D s1 (m_event_q m) = Some (DEventQ q') /\ (forall y, sget s1 y = sget (put_data s' (m_event_q m) (DEventQ q')) y).
Proof.
  induction 1 as [s|s c i ms oos n s1 s' CR PR H IH]; intros q HM HQ.
  - exists 0%nat, s, q. split; [reflexivity|]. split; [exact HQ|]. intros y. rewrite sget_put. destruct (Z.eqb_spec y (m_event_q m)) as [->|]; [|reflexivity].
    apply dexd_owned in HQ. destruct HQ as [_ HQ]. destruct (sget s (m_event_q m)); cbn in HQ |- *. unfold set_data. cbn. congruence.
  - destruct (crank_drain_one _ _ _ _ _ _ _ _ _ _ HM HQ CR PR) as (j & sa & qa & DR & ->).
    assert (NK : k <> m_event_q m) by (intros E; rewrite <- E in HQ; congruence).
    assert (FQ : sget sa (m_event_q m) = sget s (m_event_q m)) by (eapply drain_fixed; [|exact DR]; intros _ oo; apply dexd_owned in HQ; destruct HQ; congruence).
    assert (FK : sget sa k = sget s k) by (eapply drain_fixed; [|exact DR]; intros _ oo; apply dexd_owned in HM; destruct HM; congruence).
    assert (HM1 : D (put_data sa (m_event_q m) (DEventQ qa)) k = Some (DMarket m)).
    { unfold dexd in *. rewrite sget_put. replace (k =? m_event_q m) with false by lia. rewrite FK. exact HM. }
    assert (HQ1 : D (put_data sa (m_event_q m) (DEventQ qa)) (m_event_q m) = Some (DEventQ qa)).
    { apply dexd_owned in HQ. destruct HQ as [HQ _]. unfold dexd. rewrite put_prog, put_data_eq, Z.eqb_refl, FQ, HQ, Z.eqb_refl. reflexivity. }
    destruct (IH qa HM1 HQ1) as (j2 & s2 & q2 & DR2 & HQ2 & EQ2). rewrite (drain_at_q m s qa q HQ j2 sa qa FQ) in DR2. apply rbind_ok in DR2. destruct DR2 as ([s3 q3] & DR2 & X). injection X as <- <-.
    exists (j + j2)%nat, s3, q3. split; [rewrite drain_app, DR; cbn [rbind]; exact DR2|]. split; [exact HQ2|]. intros y. rewrite EQ2, put_twice. reflexivity.
Qed.

Theorem cranks_agree s k m A L s1 s2 m1 m2 A1 A2 L1 L2 : history e s -> seen e s k m A L -> usable m -> cranks e k (m_event_q m) s s1 -> cranks e k (m_event_q m) s s2 ->
  seen e s1 k m1 A1 L1 -> seen e s2 k m2 A2 L2 -> length (a_evs A1) = length (a_evs A2) -> forall y, sget s1 y = sget s2 y.
Proof.
  intros H SN P C1 C2 S1 S2 EL y. destruct (one_inv e EO s k m A L H SN P) as (seq & o & MS & C & _). pose proof (sn_mkt _ _ _ _ _ _ SN) as HM. pose proof (ms_evq _ _ _ _ _ _ _ MS) as HQ.
  pose proof (r_q_ok _ _ (ci_rep _ _ _ _ C)) as Q. set (q := ob_eq o) in *.
  assert (G : forall s1 m1 A1 L1, cranks e k (m_event_q m) s s1 -> seen e s1 k m1 A1 L1 -> exists j s' q', drain m j s q = Ok (s', q') /\ (length (q_list q) = j + length (a_evs A1))%nat /\
    (forall y, sget s1 y = sget (put_data s' (m_event_q m) (DEventQ q')) y)).
  { clear C1 C2 S1 S2 EL s1 s2 m1 m2 A1 A2 L1 L2. intros s1 m1 A1 L1 CR S1. destruct (cranks_drain k m s s1 CR q HM HQ) as (j & s' & q' & DR & HQ' & EQ). exists j, s', q'. split; [exact DR|]. split; [|exact EQ].
    assert (FK : sget s1 k = sget s k).
    { rewrite EQ, sget_put. assert (NK : k <> m_event_q m) by (intros E; rewrite <- E in HQ; congruence). replace (k =? m_event_q m) with false by lia. eapply drain_fixed; [|exact DR]. intros _ oo. apply dexd_owned in HM. destruct HM. congruence. }
    assert (m1 = m). { pose proof (sn_mkt _ _ _ _ _ _ S1) as HM1. unfold dexd in HM, HM1. rewrite FK in HM1. congruence. }
    subst m1. destruct (sn_evs _ _ _ _ _ _ S1) as (q1 & HQ1 & VS). assert (q1 = q') as -> by congruence. rewrite (drain_len m j s q s' q' Q DR). f_equal. clear - VS. induction VS; cbn [length]; congruence. }
  destruct (G s1 m1 A1 L1 C1 S1) as (j1 & t1 & q1 & D1 & N1 & E1). destruct (G s2 m2 A2 L2 C2 S2) as (j2 & t2 & q2 & D2 & N2 & E2).
  assert (j2 = j1) as -> by lia. rewrite D1 in D2. injection D2 as <- <-. rewrite E1, E2. reflexivity.
Qed.
End CrankAny.
