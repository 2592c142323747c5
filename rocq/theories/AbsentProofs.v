(** The absent trader (C64). *)
From Coq Require Import Permutation.
From Verif Require Import Base BaseProofs Fees ListSum Queue QueueProofs Codec CodecProofs Critbit CritbitProofs CritbitSlab Market Matching MatchSteps MatchSpec MatchFacts MatchReport MatchRefine MatchAsk MatchBid MatchRun Ledger LedgerSums LedgerSteps LedgerRun Slots
  Core CoreInv CoreNew CoreOrder CoreCancel CoreConsume CoreSettle CoreFrame Instr InstrProofs Store Process StoreProofs World WorldInv WorldLoad WorldRun WorldStep WorldStep2 WorldConsume WorldInit WorldMain WorldSpec WorldFacts
  WorldRange WorldCancel WorldPay WorldTrade WorldCrank WorldOpen WorldAuth WorldRights WorldSizes WorldIsolate WorldSupply LifeSpec LifeProofs LifeSteps LifeMain AbsentSpec.

(** ** Sums over the orders of an account *)
Lemma events_app x a b : events_of x (a ++ b) = events_of x a ++ events_of x b.
Proof. apply in_filter_app. Qed.
Section Bins.
Context {X Y : Type}.
Variables (f : X -> Z) (p : X -> bool) (ab : Y -> X -> bool).
Lemma bins_miss ls v : (forall l, In l ls -> ab l v = false) -> zsum (fun l => zsum f (filter (ab l) [v])) ls = 0.
Proof. induction ls as [|l ls IH]; intros N; [reflexivity|]. change (zsum f (filter (ab l) [v]) + zsum (fun l => zsum f (filter (ab l) [v])) ls = 0). rewrite IH by (intros; apply N; right; assumption). cbn [filter]. rewrite (N l (or_introl eq_refl)). reflexivity. Qed.
Lemma bins_hit ls v l : NoDup ls -> In l ls -> ab l v = true -> (forall l', In l' ls -> ab l' v = true -> l' = l) -> zsum (fun l => zsum f (filter (ab l) [v])) ls = f v.
Proof.
  induction ls as [|y ls IH]; intros ND I A U; [destruct I|]. inversion ND as [|? ? N ND']; subst. change (zsum (fun l => zsum f (filter (ab l) [v])) (y :: ls)) with (zsum f (filter (ab y) [v]) + zsum (fun l => zsum f (filter (ab l) [v])) ls). destruct I as [->|I].
  - rewrite bins_miss; [cbn [filter zsum]; rewrite A; cbn [zsum]; lia|]. intros l' I'. destruct (ab l' v) eqn:E; [|reflexivity]. rewrite (U l' (or_intror I') E) in I'. contradiction.
  - rewrite IH; [|assumption..|intros; apply U; [right|]; assumption]. cbn [filter]. destruct (ab y v) eqn:E; [|reflexivity]. rewrite (U y (or_introl eq_refl) E) in N. contradiction.
Qed.
Lemma bins_sum ls : NoDup ls -> (forall v l l', In l ls -> In l' ls -> ab l v = true -> ab l' v = true -> l' = l) ->
  forall E, (forall v, In v E -> p v = true <-> exists l, In l ls /\ ab l v = true) -> zsum f (filter p E) = zsum (fun l => zsum f (filter (ab l) E)) ls.
Proof.
  intros ND U E. induction E as [|v E IH]; intros H.
  - cbn [filter zsum]. induction ls as [|l ls IHl]; [reflexivity|]. cbn [zsum]. inversion ND; subst. rewrite <- IHl; [reflexivity|assumption|intros; eapply U; [right|right| |]; eassumption|intros ? []].
  - specialize (IH (fun w I => H w (or_intror I))). assert (E1 : zsum (fun l => zsum f (filter (ab l) (v :: E))) ls = zsum (fun l => zsum f (filter (ab l) [v])) ls + zsum (fun l => zsum f (filter (ab l) E)) ls).
    { clear. induction ls as [|l ls IH]; [reflexivity|]. cbn [zsum]. rewrite IH. cbn [filter]. destruct (ab l v); cbn [zsum]; lia. }
    rewrite E1, <- IH. specialize (H v (or_introl eq_refl)). change (filter p (v :: E)) with (if p v then v :: filter p E else filter p E). destruct (p v) eqn:PV.
    + destruct (proj1 H eq_refl) as (l & I & A). rewrite (bins_hit ls v l ND I A); [reflexivity|]. intros l' I' A'. eapply U; eassumption.
    + rewrite bins_miss; [reflexivity|]. intros l I. destruct (ab l v) eqn:A; [|reflexivity]. exfalso. assert (false = true) by (apply H; eauto). discriminate.
Qed.
End Bins.
Lemma pick (Q : leaf -> Z -> Prop) ls : NoDup (map l_key ls) -> (forall l, In l ls -> exists n, Q l n) -> exists f, forall l, In l ls -> Q l (f (l_key l)).
Proof.
  induction ls as [|l ls IH]; intros ND H; [exists (fun _ => 0); intros ? []|]. inversion ND as [|? ? N ND']; subst. destruct (IH ND' (fun x I => H x (or_intror I))) as (f & F). destruct (H l (or_introl eq_refl)) as (n & Hn).
  exists (fun z => if z =? l_key l then n else f z). intros y [<-|I]; [rewrite Z.eqb_refl; exact Hn|]. destruct (Z.eqb_spec (l_key y) (l_key l)) as [E|]; [|auto]. exfalso. apply N. rewrite <- E. apply in_map. exact I.
Qed.
(** What the events of an order move. *)
Lemma story_moves m sd l q r q' : story m sd l q r q' ->
  zsum coin_move r = match sd with Bid => zsum brought r | Ask => - zsum spent r end /\ zsum pc_move r = match sd with Bid => - zsum spent r | Ask => zsum brought r end.
Proof.
  induction 1 as [q|q n t r q1 N S IH|q n r q1 N S IH|q t N|q g N]; try (destruct IH as [IH1 IH2]); cbn [zsum coin_move pc_move brought spent traded released]; [..|]; try rewrite IH1, IH2; destruct sd; cbn [zsum]; lia.
Qed.

Lemma booked_moves vs : forall oo oo', Forall ev_ok vs -> booked vs oo oo' ->
  oo_flags oo' = oo_flags oo /\ oo_market oo' = oo_market oo /\ oo_owner oo' = oo_owner oo /\ no_less oo oo' /\
  oo_coin_total oo' = oo_coin_total oo + zsum coin_move vs /\ oo_pc_total oo' = oo_pc_total oo + zsum pc_move vs.
Proof.
  induction vs as [|v r IH]; intros oo oo' F B; cbn [booked] in B.
  - subst oo'. unfold no_less. cbn [zsum]. repeat split; lia.
  - inversion F as [|? ? OK F']; subst. destruct B as (oo1 & [BA (I1 & I2 & I3) _] & B). destruct (IH _ _ F' B) as (J1 & J2 & J3 & (L1 & L2 & L3) & T1 & T2). cbn [zsum].
    assert (X : no_less oo oo1 /\ oo_coin_total oo1 = oo_coin_total oo + coin_move v /\ oo_pc_total oo1 = oo_pc_total oo + pc_move v).
    { unfold no_less, changed_by in *. destruct v as [sd mk paid rec fee id ow sl t cid|sd rel un st id ow sl cid]; cbn [ev_ok coin_move pc_move] in *.
      - pose proof (Z.div_pos fee 5 ltac:(lia) ltac:(lia)). destruct sd, mk; lia.
      - destruct sd, rel; lia. }
    unfold no_less in *. repeat split; try congruence; try lia.
Qed.
Lemma no_less_refl oo : no_less oo oo.
Proof. unfold no_less. lia. Qed.
Lemma no_less_trans a b c : no_less a b -> no_less b c -> no_less a c.
Proof. unfold no_less. lia. Qed.
Lemma filter_all {X} (Q : X -> Prop) p l : Forall Q l -> Forall Q (filter p l).
Proof. intros F. apply Forall_forall. intros x I. apply filter_In in I. rewrite Forall_forall in F. apply F, I. Qed.
Lemma moves_none E x : (forall v, In v E -> is_fill v = false) -> zsum coin_move (events_of x E) = 0 /\ zsum pc_move (events_of x E) = 0.
Proof.
  intros N. unfold events_of. induction E as [|v E IH]; [split; reflexivity|]. destruct (IH (fun w I => N w (or_intror I))) as [I1 I2]. specialize (N v (or_introl eq_refl)). cbn [filter]. destruct (ev_owner v =? x); [|auto]. cbn [zsum]. rewrite I1, I2. destruct v; [discriminate|]. split; reflexivity.
Qed.

Section Absent.
Variable e : env.
Hypothesis EO : env_ok e.
Notation D := (dexd e).
Notation acct := (Z * open_orders)%type.

Lemma absent_stretch k w s E s' : absent e k w s E s' -> stretch e k s E s'.
Proof. induction 1; [apply stretch_now|apply stretch_tx; assumption|eapply stretch_env; eassumption]. Qed.

Section Step.
Variables (s s' : store) (c : clock) (i : instr) (ms : list meta) (k : Z) (m : market) (A : astate) (L : list acct).
Hypothesis (HI : history e s) (G : no_overflow e s) (SZ : sized s) (LG : legal e ms) (WF : wf_instr i) (H : process e c s i ms = Ok s').
Hypothesis (SN : seen e s k m A L) (P : usable m).
Let WI : winv e s := reachable_inv e EO s HI.
Let W : wstruct (D s) := wi_str _ _ WI.
Let HM : D s k = Some (DMarket m) := sn_mkt _ _ _ _ _ _ SN.

Lemma pending_ok : Forall ev_ok (a_evs A).
Proof. destruct (seen_state e s k m A L WI SN P) as (seq & o & MS). exact (ci_evs _ _ _ _ (ms_inv _ _ _ _ _ _ _ MS)). Qed.
(** Processing events. *)
Lemma consume_kept m' A' L' : consuming i -> seen e s' k m' A' L' -> exists vs, a_evs A = vs ++ a_evs A' /\ forall x oo, In (x, oo) L -> exists oo', D s' x = Some (DOO oo') /\ booked (events_of x vs) oo oo'.
Proof.
  intros (n & CI) SN'.
  assert (CR : forall k0 m0 qa oos n, D s k0 = Some (DMarket m0) -> consume_with e s m0 qa oos n = Ok s' -> exists vs, a_evs A = vs ++ a_evs A' /\ forall x oo, In (x, oo) L -> exists oo', D s' x = Some (DOO oo') /\ booked (events_of x vs) oo oo').
  { intros k0 m0 qa oos n0 HM0 HC. destruct (consume_deed e EO s k0 m0 qa oos n0 s' W HM0 HC) as (W' & HM' & _ & _ & V). destruct (sn_evs _ _ _ _ _ _ SN) as (qq & HQ & EQ). destruct (ws_evq _ W _ _ HM0) as (q0 & HQ0).
    destruct (Z.eq_dec k k0) as [E|N].
    - subst k0. assert (m0 = m) by congruence. subst m0. assert (q0 = qq) by congruence. subst q0. assert (QF : proper m -> qfits m qq) by (intros PR; eapply guard_fits; eauto).
      destruct (step_consume e EO k m s qq qa oos n0 s' WI HM HQ QF HC) as (-> & WI' & QU & s1 & q' & CL & ES & MD').
      destruct (consume_loop_inv e EO k m oos _ _ _ _ _ (mid_start e EO k m s qq WI HM HQ QF) CL) as (_ & _ & R). destruct (R P) as (vs & E1 & _ & _ & _ & RP).
      assert (HQ2 : D s' (m_event_q m) = Some (DEventQ q')) by (rewrite ES, (at_q_D e m s1 q' _ (md_q _ _ _ _ _ MD')), Z.eqb_refl; reflexivity).
      assert (MM : m' = m) by (pose proof (sn_mkt _ _ _ _ _ _ SN'); congruence). subst m'.
      destruct (sn_evs _ _ _ _ _ _ SN') as (q2 & HQ3 & EQ2). assert (q2 = q') by congruence. subst q2. rewrite E1 in EQ. apply Forall2_app_inv_l in EQ. destruct EQ as (us & rest & F1 & F2 & EA).
      assert (RE : a_evs A' = rest) by (eapply views_fun; eassumption). assert (UV : us = vs) by (eapply views_fun; [exact F1|apply views_map]). subst us rest. exists vs. split; [exact EA|]. intros x oo IX.
      apply (sn_oos _ _ _ _ _ _ SN) in IX. destruct (replay_booked _ _ _ _ RP) as (_ & RB & _). destruct (RB x oo IX) as (oo' & (LX & _) & BK). exists oo'. split; [|exact BK].
      rewrite ES, (at_q_D e m s1 q' _ (md_q _ _ _ _ _ MD')). destruct (Z.eqb_spec x (m_event_q m)) as [->|]; [|exact LX]. pose proof (md_q _ _ _ _ _ MD'). destruct IX as [IX _]. congruence.
    - exists []. assert (MX : m_event_q m <> m_event_q m0) by (destruct (apart _ _ _ _ _ W HM0 HM N (m_event_q m) ltac:(auto)) as (_ & _ & _ & n4 & _); exact n4).
      assert (T : forall y, y <> m_event_q m0 -> (forall oo, ~ live (D s) k0 y oo) -> D s' y = D s y) by (intros y Y NL; destruct (V y Y) as [E|(_ & o & o' & LV & _)]; [exact E|exfalso; exact (NL o LV)]).
      assert (MM : m' = m). { pose proof (sn_mkt _ _ _ _ _ _ SN') as X. rewrite (T k) in X; [congruence|congruence|]. intros oo (X1 & _). congruence. } subst m'.
      split; [|intros x oo IX; apply (sn_oos _ _ _ _ _ _ SN) in IX; destruct IX as (IX & F1 & F2); exists oo; split; [|reflexivity]; rewrite T; [exact IX|congruence|]; intros o (Y1 & _ & Y2); congruence].
      destruct (sn_evs _ _ _ _ _ _ SN') as (q2 & HQ3 & EQ2). rewrite (T _ MX) in HQ3 by (intros o (Y1 & _); congruence). assert (q2 = qq) by congruence. subst q2. cbn [app]. eapply views_fun; eassumption. }
  destruct CI as [CI|CI]; pose proof H as H1; rewrite CI in H1; cbn [process] in H1.
  - unfold proc_consume in H1. destruct (rev ms) as [|z1 [|z2 [|eqa [|mkt [|z3 z4]]]]]; try discriminate. apply rbind_ok in H1. destruct H1 as (m0 & HM0 & H1). apply rbind_ok in H1. destruct H1 as (? & _ & H1).
    apply load_market_ok in HM0. destruct HM0 as [HM0 _]. eapply CR; eauto.
  - unfold proc_consume_perm in H1. destruct (rev ms) as [|z1 [|eqa [|mkt [|z3 z4]]]]; try discriminate. apply rbind_ok in H1. destruct H1 as (m0 & HM0 & H1). apply rbind_ok in H1. destruct H1 as (? & _ & H1).
    apply rbind_ok in H1. destruct H1 as (? & _ & H1). apply load_market_ok in HM0. destruct HM0 as [HM0 _]. eapply CR; eauto.
Qed.
(** Anything else by somebody else leaves the account alone, except that orders of the account can be pruned. *)
Lemma untouched x oo : D s x = Some (DOO oo) -> ~ signed_by ms (oo_owner oo) -> D s' x = D s x \/ (exists n, i = IPrune n) \/ consuming i.
Proof.
  intros HX NS. destruct (process_act e EO c s i ms s' W H) as [n0 I0 ES|ix I0 WS KP _ _|n0 k0 m0 I0 _ _ _ _ _ _ _|k0 m0 m1 x0 oo0 oo1 DE _ _ LV SG _ _ _ _ _|n0 k0 m0 x0 oo0 oo1 a I0 _ _ _ _ _ _ _ _|ix k0 m0 m1 I0 _ DE _ _ _|k0 m0 I0 DE _ _ _|k0 m0 I0 _ DE _ _ _].
  - left. congruence.
  - left. rewrite HX. apply KP; [assumption|discriminate].
  - right. right. exists n0. destruct I0 as [[-> _]|[-> _]]; auto.
  - left. eapply de_oos; [exact DE|eauto|]. intros a o [= <- <-] ->. destruct LV as [(L1 & _)|(L1 & _)]; [|congruence]. apply NS. replace oo with oo0 by congruence. exact SG.
  - right. left. eauto.
  - left. eapply de_oos; [exact DE|eauto|discriminate].
  - left. eapply de_oos; [exact DE|eauto|discriminate].
  - left. eapply de_oos; [exact DE|eauto|discriminate].
Qed.
Lemma pruned n x oo m' A' L' E : i = IPrune n -> seen e s' k m' A' L' -> a_evs A' = a_evs A ++ E -> In (x, oo) L ->
  exists oo', D s' x = Some (DOO oo') /\ oo_flags oo' = oo_flags oo /\ oo_market oo' = oo_market oo /\ oo_owner oo' = oo_owner oo /\ no_less oo oo' /\
    oo_coin_total oo' = oo_coin_total oo /\ oo_pc_total oo' = oo_pc_total oo /\ zsum coin_move (events_of x E) = 0 /\ zsum pc_move (events_of x E) = 0.
Proof.
  intros I0 SN' EV IX. pose proof H as H1. pose proof WF as WJ. rewrite I0 in H1, WJ. pose proof (proj1 (sn_oos _ _ _ _ _ _ SN x oo) IX) as (HX & FX & MX). pose proof H1 as H2. cbn [process] in H1.
  destruct (prune_deed e EO _ _ _ _ W H1) as (k0 & x0 & auth & m0 & oo0 & oo1 & K0 & _ & _ & _ & _ & DE & LV & _).
  assert (ST : E = [] -> D s' x = D s x -> exists oo', D s' x = Some (DOO oo') /\ oo_flags oo' = oo_flags oo /\ oo_market oo' = oo_market oo /\ oo_owner oo' = oo_owner oo /\ no_less oo oo' /\
    oo_coin_total oo' = oo_coin_total oo /\ oo_pc_total oo' = oo_pc_total oo /\ zsum coin_move (events_of x E) = 0 /\ zsum pc_move (events_of x E) = 0).
  { intros -> E1. exists oo. rewrite E1. pose proof (no_less_refl oo). cbn. auto 12. }
  destruct (Z.eq_dec k k0) as [EK|NK].
  - subst k0. assert (m0 = m) by (pose proof (de_mkt _ _ _ _ _ _ _ DE); congruence). subst m0.
    destruct (prune_effect e EO s k m A L WI SN P c _ ms s' H2 K0 ltac:(cbn [wf_instr] in WJ; unfold u16 in WJ; lia)) as (x1 & o1 & bl & al & _ & IN & _ & PM & SG & N1 & N2 & _ & (A2 & oo' & WD & SN2 & ON) & _).
    destruct (seen_same e _ _ _ _ _ _ _ _ SN2 SN') as (_ & EB & EE).
    assert (MV : zsum coin_move (events_of x E) = 0 /\ zsum pc_move (events_of x E) = 0).
    { apply moves_none. destruct WD as [_ _ _ _ (E0 & EV0 & PM0) _ _]. assert (E0 = E) by (rewrite <- EE, EV in EV0; apply app_inv_head in EV0; symmetry; exact EV0). subst E0. intros v I. apply (Permutation_in _ PM0) in I. apply in_app_or in I. destruct I as [I|I]; apply in_map_iff in I; destruct I as (z & <- & _); reflexivity. }
    destruct MV as [MV1 MV2]. destruct (Z.eq_dec x x1) as [EX|NX].
    + subst x1. assert (o1 = oo) by (eapply owner_of; [exact SN|exact IX|exact IN]). subst o1. exists oo'.
      assert (I2 : In (x, oo') (put_acct L x oo')) by (unfold put_acct; apply in_map_iff; exists (x, oo); cbn [fst]; rewrite Z.eqb_refl; auto). apply (sn_oos _ _ _ _ _ _ SN2) in I2. destruct I2 as (I2 & I3 & I4).
      destruct WD as [w1 w2 _ _ _ (b1 & b2 & b3 & b4 & b5) (s1 & s2 & s3 & _)]. split; [exact I2|]. split; [exact s1|]. split; [exact s2|]. split; [exact s3|]. split; [|split; [lia|split; [lia|auto]]].
      assert (NN : forall sd ls, (forall l, In l ls -> In l (book_of A sd)) -> 0 <= zsum (worth m sd) ls).
      { intros sd ls IL. apply zsum_nonneg. intros l Hl. destruct (resting_pos e s k m A L WI SN P sd l (IL l Hl)). destruct P as (? & ? & _). unfold worth. destruct sd; nia. }
      pose proof (NN Bid bl (fun l Hl => proj1 (w1 l Hl))). pose proof (NN Ask al (fun l Hl => proj1 (w2 l Hl))). unfold no_less. lia.
    + exists oo. pose proof (no_less_refl oo). split; [|auto 12]. assert (I2 : In (x, oo) (put_acct L x1 oo')) by (unfold put_acct; apply in_map_iff; exists (x, oo); cbn [fst]; destruct (Z.eqb_spec x x1); [contradiction|auto]).
      apply (sn_oos _ _ _ _ _ _ SN2) in I2. apply I2.
  - apply ST.
    + pose proof (de_mkt _ _ _ _ _ _ _ DE) as HM0. assert (EM : D s' k = D s k) by (eapply de_mkts; [exact DE|exact NK|eauto]). assert (m' = m) by (pose proof (sn_mkt _ _ _ _ _ _ SN'); congruence). subst m'.
      destruct (sn_evs _ _ _ _ _ _ SN) as (qq & HQ & EQ). destruct (sn_evs _ _ _ _ _ _ SN') as (q2 & HQ3 & EQ2). destruct (apart _ _ _ _ _ W HM0 HM NK (m_event_q m) ltac:(auto)) as (n1 & n2 & n3 & n4 & n5).
      assert (EX : D s' (m_event_q m) = D s (m_event_q m)) by (eapply de_else; [exact DE|try assumption..]; intros a o [= <- <-] EY; destruct LV as (LV & _); congruence).
      assert (q2 = qq) by congruence. subst q2. assert (a_evs A' = a_evs A) by (eapply views_fun; eassumption). rewrite EV in *. destruct E; [reflexivity|]. exfalso. apply (f_equal (@length _)) in H0. rewrite app_length in H0. cbn [length] in H0. lia.
    + eapply de_oos; [exact DE|eauto|]. intros a o [= <- <-] ->. destruct LV as (L1 & _ & L3). congruence.
Qed.
(** One instruction signed by others. *)
Theorem absent_step x oo m' A' L' E : In (x, oo) L -> ~ signed_by ms (oo_owner oo) -> seen e s' k m' A' L' -> same_config m m' -> queued e k s s' E ->
  (exists oo', In (x, oo') L' /\ oo_owner oo' = oo_owner oo /\ no_less oo oo' /\
    coin_claim x oo' A' = coin_claim x oo A + zsum coin_move (events_of x E) /\ pc_claim x oo' A' = pc_claim x oo A + zsum pc_move (events_of x E)) /\
  (forall v, In v E -> ev_owner v = x -> exists sd l, In l (book_of A sd) /\ l_owner l = x /\ about sd (l_key l) v = true) /\
  (forall sd y, In y (book_of A' sd) -> l_owner y = x -> exists l q, In l (book_of A sd) /\ y = set_qty l q).
Proof.
  intros IX NS SN' SC QE. pose proof (proj1 (sn_oos _ _ _ _ _ _ SN x oo) IX) as (HX & FX & MX).
  assert (NA : acts_for i ms <> Some x).
  { intros AF. destruct (owner_signs e EO s c i ms s' x (history_anytime e s HI) H AF) as (o' & _ & SG & U). destruct (U oo HX) as [U1 _]. apply NS. rewrite U1. exact SG. }
  destruct (lived_step e EO s s' c i ms k m A L WI G LG WF H SN P m' A' L' SN' SC) as (_ & vs & rest & E0 & X1 & X2 & O & HE & CO & _).
  assert (E0 = E) as -> by (eapply (queued_fun e); [|exact QE]; apply (queued_iff e _ _ _ _ _ _ _ _ _ _ SN SN'); exists vs, rest; intuition).
  split; [|split].
  2:{ intros v I OW. destruct (HE v I) as [X|(sd & l & IL & OL & AB)]; [exfalso; apply NA; congruence|]. exists sd, l. split; [exact IL|]. split; [congruence|exact AB]. }
  2:{ intros sd y I OW. destruct (CO sd y I) as [X|X]; [exfalso; apply NA; congruence|exact X]. }
  assert (DEC : consuming i \/ ~ consuming i) by (destruct i; try (right; intros (n0 & [?|?]); discriminate); left; eexists; eauto).
  assert (IL : forall oo', D s' x = Some (DOO oo') -> oo_flags oo' = oo_flags oo -> oo_market oo' = oo_market oo -> In (x, oo') L') by (intros o' D1 D2 D3; apply (sn_oos _ _ _ _ _ _ SN'); split; [exact D1|split; congruence]).
  unfold coin_claim, pc_claim. destruct DEC as [CI|NC].
  - destruct (consume_kept m' A' L' CI SN') as (us & EA & BK). destruct (BK x oo IX) as (oo' & DX & B). pose proof pending_ok as OK. rewrite EA in OK. apply Forall_app in OK. destruct OK as [OK _].
    destruct (booked_moves _ _ _ (filter_all _ _ _ OK) B) as (b1 & b2 & b3 & b4 & b5 & b6).
    assert (E = []) as ->.
    { eapply (queued_fun e); [exact QE|]. apply (queued_iff e _ _ _ _ _ _ _ _ _ _ SN SN'). exists us, (a_evs A'). rewrite app_nil_r. auto. }
    exists oo'. split; [apply IL; assumption|]. split; [exact b3|]. split; [exact b4|]. rewrite EA, events_app, !zsum_app. cbn [events_of filter zsum] in *. fold (events_of x us) in *. lia.
  - destruct O as [->|[_ CI]]; [|contradiction]. cbn [app] in X1. subst rest. rewrite X2, events_app, !zsum_app. destruct (untouched x oo HX NS) as [U|[(n0 & IP)|CI]]; [..|contradiction].
    + exists oo. split; [apply IL; congruence|]. split; [reflexivity|]. split; [apply no_less_refl|]. lia.
    + destruct (pruned n0 x oo m' A' L' E IP SN' X2 IX) as (oo' & p1 & p2 & p3 & p4 & p5 & p6 & p7 & p8 & p9). exists oo'. split; [apply IL; assumption|]. split; [exact p4|]. split; [exact p5|]. lia.
Qed.
End Step.

(** ** The whole stretch *)
Theorem absent_story k w s E s' : absent e k w s E s' -> history e s -> forall m A L x oo, seen e s k m A L -> usable m -> In (x, oo) L -> oo_owner oo = w ->
  history e s' /\ exists m' A' L', seen e s' k m' A' L' /\ same_config m m' /\
  (exists oo', In (x, oo') L' /\ oo_owner oo' = w /\ no_less oo oo' /\
    coin_claim x oo' A' = coin_claim x oo A + zsum coin_move (events_of x E) /\ pc_claim x oo' A' = pc_claim x oo A + zsum pc_move (events_of x E)) /\
  (forall v, In v E -> ev_owner v = x -> exists sd l, In l (book_of A sd) /\ l_owner l = x /\ about sd (l_key l) v = true) /\
  (forall sd y, In y (book_of A' sd) -> l_owner y = x -> exists l q, In l (book_of A sd) /\ y = set_qty l q).
Proof.
  intros AB HI m A L x oo SN P IX OW. induction AB as [|E s1 c b ms E1 AB IH G SZ HB LG NS Q|E s1 s2 AB IH R].
  - split; [exact HI|]. exists m, A, L. split; [exact SN|]. split; [apply same_config_refl|]. split; [exists oo; split; [exact IX|]; split; [exact OW|]; split; [apply no_less_refl|cbn; lia]|]. split; [intros v []|]. intros sd y I _. exists y, (l_qty y). rewrite set_qty_same. auto.
  - destruct IH as (HI1 & m1 & A1 & L1 & SN1 & SC1 & (oo1 & IX1 & OW1 & NL1 & C1 & C2) & EV1 & BK1). split; [apply reach_tx; assumption|]. assert (P1 : usable m1) by (destruct SC1 as (? & ? & ? & ? & ? & ->); exact P).
    destruct (transact_cases e c s1 b ms HB) as [ES|(i & WF & H)].
    + rewrite ES in *. assert (E1 = []) as ->.
      { eapply (queued_fun e); [exact Q|]. apply (queued_iff e _ _ _ _ _ _ _ _ _ _ SN1 SN1). exists [], (a_evs A1). rewrite app_nil_r. auto. }
      rewrite app_nil_r. exists m1, A1, L1. split; [exact SN1|]. split; [exact SC1|]. split; [exists oo1; auto|]. auto.
    + set (s2 := transact e c s1 b ms) in *. destruct (seen_after e EO _ _ _ _ _ _ _ _ _ HI1 G SZ LG WF H SN1 P1) as (m2 & A2 & L2 & SN2 & SC2).
      rewrite <- OW1 in NS. destruct (absent_step s1 s2 c i ms k m1 A1 L1 HI1 G LG WF H SN1 P1 x oo1 m2 A2 L2 E1 IX1 NS SN2 SC2 Q) as ((oo2 & IX2 & OW2 & NL2 & D1 & D2) & EV2 & BK2).
      exists m2, A2, L2. split; [exact SN2|]. split; [eapply same_config_trans; eassumption|]. split; [|split].
      * exists oo2. split; [exact IX2|]. split; [congruence|]. split; [eapply no_less_trans; eassumption|]. rewrite events_app, !zsum_app. lia.
      * intros v I OV. apply in_app_or in I. destruct I as [I|I]; [auto|]. destruct (EV2 v I OV) as (sd & l & IL & OL & AV). destruct (BK1 sd l IL OL) as (l0 & q0 & I0 & ->). exists sd, l0. auto.
      * intros sd y I OY. destruct (BK2 sd y I OY) as (l & q & IL & ->). destruct (BK1 sd l IL OY) as (l0 & q0 & I0 & ->). exists l0, q. auto.
  - destruct IH as (HI1 & m1 & A1 & L1 & SN1 & SC1 & (oo1 & IX1 & OW1 & NL1 & C1 & C2) & EV1 & BK1). assert (HI2 : history e s2) by (eapply reach_env; eassumption). split; [exact HI2|]. assert (P1 : usable m1) by (destruct SC1 as (? & ? & ? & ? & ? & ->); exact P).
    assert (KP : forall y d, D s1 y = Some d -> d <> DZero -> ~ is_closed d -> D s2 y = Some d) by (intros; eapply rely_kept; eassumption).
    assert (HM2 : D s2 k = Some (DMarket m1)) by (apply KP; [exact (sn_mkt _ _ _ _ _ _ SN1)|discriminate|apply nc; discriminate]). destruct (market_seen e EO s2 k m1 HI2 HM2 P1) as (A2 & L2 & SN2).
    assert (EB : forall sd, book_of A2 sd = book_of A1 sd).
    { destruct (sn_bids _ _ _ _ _ _ SN1) as (b1 & B1 & B2). destruct (sn_asks _ _ _ _ _ _ SN1) as (a1 & F1 & F2). destruct (sn_bids _ _ _ _ _ _ SN2) as (b3 & B3 & B4). destruct (sn_asks _ _ _ _ _ _ SN2) as (a3 & F3 & F4).
      apply KP in B1; [|discriminate|apply nc; discriminate]. apply KP in F1; [|discriminate|apply nc; discriminate]. intros []; cbn [book_of]; congruence. }
    assert (EE : a_evs A2 = a_evs A1).
    { destruct (sn_evs _ _ _ _ _ _ SN1) as (q1 & Q1 & Q2). destruct (sn_evs _ _ _ _ _ _ SN2) as (q3 & Q3 & Q4). apply KP in Q1; [|discriminate|apply nc; discriminate]. assert (q3 = q1) by congruence. subst q3. eapply views_fun; eassumption. }
    exists m1, A2, L2. split; [exact SN2|]. split; [exact SC1|]. split; [|split; [exact EV1|intros sd y I; rewrite EB in I; exact (BK1 sd y I)]].
    exists oo1. split; [|split; [exact OW1|split; [exact NL1|unfold coin_claim, pc_claim in *; rewrite EE; auto]]]. apply (sn_oos _ _ _ _ _ _ SN1) in IX1. destruct IX1 as (I1 & I2 & I3). apply (sn_oos _ _ _ _ _ _ SN2). split; [|auto].
    apply KP; [exact I1|discriminate|]. intros (o & X1 & X2). injection X1 as <-. rewrite I2 in X2. discriminate.
Qed.
Lemma by_side f x E : zsum f (events_of x E) = zsum f (filter (fun v => (ev_owner v =? x) && side_eqb (ev_side v) Bid) E) + zsum f (filter (fun v => (ev_owner v =? x) && side_eqb (ev_side v) Ask) E).
Proof. unfold events_of. induction E as [|v E IH]; [reflexivity|]. cbn [filter]. destruct (ev_owner v =? x); cbn [andb]; [|exact IH]. destruct (ev_side v); cbn [side_eqb zsum]; lia. Qed.
Lemma own_In x bk l : In l (own_orders x bk) <-> In l bk /\ l_owner l = x.
Proof. unfold own_orders. rewrite filter_In, Z.eqb_eq. tauto. Qed.
Lemma zsum_by {X} (f g : X -> Z) c ls : (forall l, In l ls -> f l = c * g l) -> zsum f ls = c * zsum g ls.
Proof. induction ls as [|l ls IH]; intros F; cbn [zsum]; [lia|]. rewrite (F l (or_introl eq_refl)), IH by (intros; apply F; right; assumption). lia. Qed.
Theorem absent_trader k w s E s' m A L m' A' L' x oo : history e s -> absent e k w s E s' -> seen e s k m A L -> usable m -> seen e s' k m' A' L' -> In (x, oo) L -> oo_owner oo = w ->
  exists oo' bought sold, In (x, oo') L' /\ oo_owner oo' = w /\ no_less oo oo' /\
    within A' Bid bought (own_orders x (a_bids A)) /\ within A' Ask sold (own_orders x (a_asks A)) /\
    coin_claim x oo' A' = coin_claim x oo A + m_coin_lot m * lots bought (own_orders x (a_bids A)) - m_coin_lot m * lots sold (own_orders x (a_asks A)) /\
    pc_claim x oo' A' = pc_claim x oo A - m_pc_lot m * cost bought (own_orders x (a_bids A)) + m_pc_lot m * cost sold (own_orders x (a_asks A)) /\
    forall sd y, In y (own_orders x (book_of A' sd)) -> exists l, In l (own_orders x (book_of A sd)) /\ y = set_qty l (l_qty y) /\ 0 < l_qty y <= l_qty l.
Proof.
  intros HI AB SN P SN' IX OW. pose proof (absent_stretch k w s E s' AB) as ST. pose proof (reachable_inv e EO s HI) as WI.
  destruct (absent_story k w s E s' AB HI m A L x oo SN P IX OW) as (HI' & m2 & A2 & L2 & SN2 & SC & (oo2 & IX2 & OW2 & NL & C1 & C2) & EV & BK).
  assert (m2 = m') by (pose proof (sn_mkt _ _ _ _ _ _ SN2); pose proof (sn_mkt _ _ _ _ _ _ SN'); congruence). subst m2. assert (P' : usable m') by (destruct SC as (? & ? & ? & ? & ? & ->); exact P).
  destruct (seen_same e _ _ _ _ _ _ _ _ SN2 SN') as (_ & EB & EE). unfold coin_claim, pc_claim in C1, C2. rewrite <- EE in C1, C2.
  assert (SO : forall sd, sorted (book_of A sd)) by (destruct (seen_state e s k m A L WI SN P) as (seq & o & MS); exact (cinv_sorted _ _ _ _ (ms_inv _ _ _ _ _ _ _ MS))).
  assert (SO' : forall sd, sorted (book_of A' sd)) by (destruct (seen_state e s' k m' A' L' (reachable_inv e EO s' HI') SN' P') as (seq & o & MS); exact (cinv_sorted _ _ _ _ (ms_inv _ _ _ _ _ _ _ MS))).
  assert (ND : forall sd, NoDup (map l_key (own_orders x (book_of A sd)))).
  { intros sd. apply (key_nodup (book_of A sd)); [apply SO|intros l I; apply own_In in I; apply I|apply NoDup_filter, sorted_nodup, SO]. }
  assert (Q : forall sd, exists f, forall l, In l (own_orders x (book_of A sd)) -> (exists q', rests sd l A' q' /\ 0 <= f (l_key l) <= l_qty l - q') /\
    zsum coin_move (filter (about sd (l_key l)) E) = match sd with Bid => fetch m sd l (f (l_key l)) | Ask => - part m sd l (f (l_key l)) end /\
    zsum pc_move (filter (about sd (l_key l)) E) = match sd with Bid => - part m sd l (f (l_key l)) | Ask => fetch m sd l (f (l_key l)) end /\
    forall v, In v E -> about sd (l_key l) v = true -> ev_owner v = x).
  { intros sd. apply (pick (fun l n => (exists q', rests sd l A' q' /\ 0 <= n <= l_qty l - q') /\ zsum coin_move (filter (about sd (l_key l)) E) = match sd with Bid => fetch m sd l n | Ask => - part m sd l n end /\
      zsum pc_move (filter (about sd (l_key l)) E) = match sd with Bid => - part m sd l n | Ask => fetch m sd l n end /\ forall v, In v E -> about sd (l_key l) v = true -> ev_owner v = x)); [apply ND|]. intros l I. apply own_In in I. destruct I as [I OL].
    destruct (life_of_an_order e EO k s E s' m A L m' A' L' sd l HI ST SN P SN' I) as (q' & S0 & R). destruct (resting_pos e s k m A L WI SN P sd l I) as [QP _]. destruct (story_sums _ _ _ _ _ _ S0 ltac:(lia)) as [_ (n & N & S2 & S3)].
    destruct (story_moves _ _ _ _ _ _ S0) as [M1 M2]. exists n. split; [exists q'; split; [exact R|lia]|]. split; [rewrite M1; destruct sd; congruence|]. split; [rewrite M2; destruct sd; congruence|].
    intros v V AV. rewrite <- OL. eapply story_owner; [exact S0|]. apply filter_In. auto. }
  destruct (Q Bid) as (nb & NB). destruct (Q Ask) as (na & NA).
  assert (SUM : forall f sd, (forall l, In l (own_orders x (book_of A sd)) -> forall v, In v E -> about sd (l_key l) v = true -> ev_owner v = x) ->
    zsum f (filter (fun v => (ev_owner v =? x) && side_eqb (ev_side v) sd) E) = zsum (fun l => zsum f (filter (about sd (l_key l)) E)) (own_orders x (book_of A sd))).
  { intros f sd OWN. apply (bins_sum f (fun v => (ev_owner v =? x) && side_eqb (ev_side v) sd) (fun l => about sd (l_key l))).
    - apply NoDup_filter, sorted_nodup, SO.
    - intros v l l' I I' A1 A2'. apply own_In in I. apply own_In in I'. unfold about in A1, A2'. eapply sorted_uniq; [apply SO|apply I'|apply I|]. lia.
    - intros v V. split.
      + intros PV. apply andb_prop in PV. destruct PV as [PV SV]. destruct (EV v V ltac:(lia)) as (sd1 & l & IL & OL & AV). exists l. assert (sd1 = sd) by (unfold about in AV; destruct (ev_side v), sd1, sd; try reflexivity; discriminate). subst sd1. split; [apply own_In; auto|exact AV].
      + intros (l & IL & AV). rewrite (OWN l IL v V AV), Z.eqb_refl. unfold about in AV. apply andb_prop in AV. rewrite (proj1 AV). reflexivity. }
  assert (SB : forall f, zsum f (filter (fun v => (ev_owner v =? x) && side_eqb (ev_side v) Bid) E) = zsum (fun l => zsum f (filter (about Bid (l_key l)) E)) (own_orders x (a_bids A))) by (intros f; apply (SUM f Bid); intros l I; apply (NB l I)).
  assert (SA : forall f, zsum f (filter (fun v => (ev_owner v =? x) && side_eqb (ev_side v) Ask) E) = zsum (fun l => zsum f (filter (about Ask (l_key l)) E)) (own_orders x (a_asks A))) by (intros f; apply (SUM f Ask); intros l I; apply (NA l I)).
  exists oo2, nb, na. split; [apply (sn_oos _ _ _ _ _ _ SN'); apply (sn_oos _ _ _ _ _ _ SN2) in IX2; exact IX2|]. split; [exact OW2|]. split; [exact NL|].
  split; [intros l I; apply (NB l I)|]. split; [intros l I; apply (NA l I)|]. unfold coin_claim, pc_claim, lots, cost. split; [|split].
  - rewrite C1, (by_side coin_move x E), SB, SA. rewrite (zsum_by (fun l => zsum coin_move (filter (about Bid (l_key l)) E)) (fun l => nb (l_key l)) (m_coin_lot m) (own_orders x (a_bids A))), (zsum_by (fun l => zsum coin_move (filter (about Ask (l_key l)) E)) (fun l => na (l_key l)) (- m_coin_lot m) (own_orders x (a_asks A))); [lia| |].
    + intros l I. destruct (NA l I) as (_ & N1 & _). rewrite N1. unfold part. ring.
    + intros l I. destruct (NB l I) as (_ & N1 & _). rewrite N1. unfold fetch. ring.
  - rewrite C2, (by_side pc_move x E), SB, SA. rewrite (zsum_by (fun l => zsum pc_move (filter (about Bid (l_key l)) E)) (fun l => nb (l_key l) * l_price l) (- m_pc_lot m) (own_orders x (a_bids A))), (zsum_by (fun l => zsum pc_move (filter (about Ask (l_key l)) E)) (fun l => na (l_key l) * l_price l) (m_pc_lot m) (own_orders x (a_asks A))); [lia| |].
    + intros l I. destruct (NA l I) as (_ & _ & N1 & _). rewrite N1. unfold fetch. ring.
    + intros l I. destruct (NB l I) as (_ & _ & N1 & _). rewrite N1. unfold part. ring.
  - intros sd y I. apply own_In in I. destruct I as [I OY]. pose proof I as I2. rewrite EB in I2. destruct (BK sd y I2 OY) as (l & q & IL & ->). exists l. split; [apply own_In; auto|]. split; [reflexivity|]. cbn [l_qty set_qty].
    destruct (life_of_an_order e EO k s E s' m A L m' A' L' sd l HI ST SN P SN' IL) as (q' & S0 & R). destruct (resting_pos e s k m A L WI SN P sd l IL) as [QP _]. pose proof (story_range _ _ _ _ _ _ S0 ltac:(lia)) as QR.
    destruct R as [[R1 R2]|[_ R2]]; [|exfalso; exact (R2 _ I eq_refl)]. assert (X : set_qty l q = set_qty l q') by (eapply sorted_uniq; [apply SO'|exact I|exact R2|reflexivity]). apply (f_equal l_qty) in X. cbn [l_qty set_qty] in X. lia.
Qed.
Theorem absent_events k w s E s' : absent e k w s E s' -> history e s -> forall m A L x oo, seen e s k m A L -> usable m -> In (x, oo) L -> oo_owner oo = w ->
  forall v, In v E -> ev_owner v = x -> exists sd l, In l (book_of A sd) /\ l_owner l = x /\ about sd (l_key l) v = true.
Proof. intros AB HI m A L x oo SN P IX OW. destruct (absent_story k w s E s' AB HI m A L x oo SN P IX OW) as (_ & _ & _ & _ & _ & _ & _ & EV & _). exact EV. Qed.
End Absent.
