(** Every instruction, and then every history, in the life of a resting order (C61). *)
From Coq Require Import Permutation.
From Verif Require Import Base BaseProofs Fees ListSum Queue QueueProofs Codec CodecProofs Critbit CritbitProofs CritbitSlab Market Matching MatchSteps MatchSpec MatchFacts MatchReport MatchRefine MatchAsk MatchBid MatchRun Ledger LedgerSums LedgerSteps Slots
  Core CoreInv CoreNew CoreOrder CoreCancel CoreConsume CoreSettle CoreFrame Instr InstrProofs Store Process StoreProofs World WorldInv WorldLoad WorldRun WorldStep WorldStep2 WorldConsume WorldInit WorldMain WorldSpec WorldFacts
  WorldRange WorldCancel WorldPay WorldTrade WorldCrank WorldOpen WorldAuth WorldRights WorldSizes WorldIsolate WorldSupply LifeSpec LifeProofs LifeSteps.

Section Main.
Variable e : env.
Hypothesis EO : env_ok e.
Notation D := (dexd e).
Notation acct := (Z * open_orders)%type.

Lemma signs_by ms j w : signs ms j w -> signed_by ms w.
Proof. intros H. exists (mkMeta w true). split; [eapply nth_error_In; exact H|auto]. Qed.
Definition lived (s s' : store) (i : instr) (ms : list meta) (k : Z) (m : market) (A : astate) (L : list acct) (m' : market) (A' : astate) : Prop :=
  same_config m m' /\ exists vs rest E, a_evs A = vs ++ rest /\ a_evs A' = rest ++ E /\ (vs = [] \/ (E = [] /\ consuming i)) /\ heard (acts_for i ms) A E /\ come (acts_for i ms) A A' /\
  exists num num', next_number e s m num /\ next_number e s' m' num' /\ num <= num' /\
    lives m num A A' E (fun sd l v => forall oo, In (l_owner l, oo) L -> cause e s k m i ms A A' sd l (oo_owner oo) v) /\ ranks num A E.

Section Step.
Variables (s s' : store) (c : clock) (i : instr) (ms : list meta) (k : Z) (m : market) (A : astate) (L : list acct).
Hypothesis (WI : winv e s) (G : no_overflow e s) (SZ : sized s) (LG : legal e ms) (WF : wf_instr i) (H : process e c s i ms = Ok s').
Hypothesis (SN : seen e s k m A L) (P : usable m).
Let W : wstruct (D s) := wi_str _ _ WI.
Let HM : D s k = Some (DMarket m) := sn_mkt _ _ _ _ _ _ SN.

Lemma numbers : exists num, next_number e s m num /\ 0 <= num /\ num + 16 < B64 /\ ordered num A.
Proof.
  destruct (seen_state e s k m A L WI SN P) as (seq & o & MS). pose proof (ms_inv _ _ _ _ _ _ _ MS) as C. exists seq. split; [exact (ms_req _ _ _ _ _ _ _ MS)|]. pose proof (ci_seq _ _ _ _ C). split; [lia|].
  split; [exact (proj2 (G k m HM P) _ _ (ms_req _ _ _ _ _ _ _ MS))|]. split; [exact (cinv_sorted _ _ _ _ C)|exact (ci_keys _ _ _ _ C)].
Qed.
Lemma resting_pos sd l : In l (book_of A sd) -> 0 < l_qty l /\ 0 < l_price l.
Proof.
  intros I. destruct (seen_state e s k m A L WI SN P) as (seq & o & MS). pose proof (ms_inv _ _ _ _ _ _ _ MS) as C. pose proof (ci_fit _ _ _ _ C) as [F1 F2].
  destruct sd; cbn [book_of] in I; [destruct (F1 l I) as (? & ? & _)|destruct (F2 l I) as (? & ? & _)]; auto.
Qed.
Lemma owner_of x oo oo' : In (x, oo) L -> In (x, oo') L -> oo' = oo.
Proof. intros I1 I2. apply (sn_oos _ _ _ _ _ _ SN) in I1. apply (sn_oos _ _ _ _ _ _ SN) in I2. destruct I1 as [I1 _], I2 as [I2 _]. congruence. Qed.
(** Nothing happens to the books, the events and the counter. *)
Lemma lived_same m' A' L' : seen e s' k m' A' L' -> same_config m m' -> D s' (m_bids m) = D s (m_bids m) -> D s' (m_asks m) = D s (m_asks m) ->
  D s' (m_event_q m) = D s (m_event_q m) -> D s' (m_req_q m) = D s (m_req_q m) -> lived s s' i ms k m A L m' A'.
Proof.
  intros SN' SC E1 E2 E3 E4. split; [exact SC|]. destruct numbers as (num & NN & N0 & N1 & OR). assert (LK : m_bids m' = m_bids m /\ m_asks m' = m_asks m /\ m_event_q m' = m_event_q m /\ m_req_q m' = m_req_q m) by (destruct SC as (? & ? & ? & ? & ? & ->); repeat split; reflexivity).
  destruct LK as (K1 & K2 & K3 & K4). destruct (seen_same e s k m A L m (mkA (a_bids A') (a_asks A') (a_evs A')) L) as (_ & EB & EE); [exact SN| |].
  - destruct SN as [a1 a2 a3 a4 a5 a6], SN' as [b1 b2 b3 b4 b5 b6]. constructor; try assumption; cbn [a_bids a_asks a_evs]; [rewrite K1, E1 in b2|rewrite K2, E2 in b3|rewrite K3, E3 in b4]; assumption.
  - exists [], (a_evs A), []. split; [reflexivity|]. split; [rewrite app_nil_r; exact EE|]. split; [auto|]. split; [intros v []|]. split; [apply come_refl; intros sd; rewrite <- (EB sd); destruct sd; reflexivity|]. exists num, num. split; [exact NN|]. split; [unfold next_number in *; rewrite K4; congruence|]. split; [lia|].
    split; [|intros sd l q _ _ _; apply served_nil]. intros sd l q _ RE. exists q. split; [apply story_still|]. split; [|intros v []]. unfold rests in *. replace (book_of A' sd) with (book_of A sd); [exact RE|]. rewrite <- (EB sd). destruct sd; reflexivity.
Qed.
Lemma lived_other k0 m0 m1 xo m' A' L' : deed e s s' k0 m0 m1 xo -> (forall x o, xo = Some (x, o) -> D s x = Some DZero \/ exists oo, D s x = Some (DOO oo)) -> k <> k0 -> seen e s' k m' A' L' -> lived s s' i ms k m A L m' A'.
Proof.
  intros DE X N SN'. pose proof (de_mkt _ _ _ _ _ _ _ DE) as HM0. pose proof (de_mkts _ _ _ _ _ _ _ DE k N ltac:(eauto)) as EM.
  assert (m' = m) by (pose proof (sn_mkt _ _ _ _ _ _ SN'); congruence). subst m'.
  assert (T : forall y, y = m_bids m \/ y = m_asks m \/ y = m_req_q m \/ y = m_event_q m -> (forall oo, D s y <> Some (DOO oo)) -> D s y <> Some DZero -> D s' y = D s y).
  { intros y Y N1 N2. destruct (apart _ _ _ _ _ W HM0 HM N y ltac:(tauto)) as (n1 & n2 & n3 & n4 & n5). apply (de_else _ _ _ _ _ _ _ DE); try assumption. intros a o E EY. subst a. destruct (X _ _ E) as [Z|(oo & Z)]; [auto|exact (N1 _ Z)]. }
  destruct (sn_bids _ _ _ _ _ _ SN) as (sb & HB & _). destruct (sn_asks _ _ _ _ _ _ SN) as (sa & HA & _). destruct (sn_evs _ _ _ _ _ _ SN) as (qq & HQ & _). destruct (ws_req _ W _ _ HM) as (rq & HR).
  eapply lived_same; [exact SN'|apply same_config_refl|..]; apply T; auto; intros; congruence.
Qed.
(** Only the market record and open-orders accounts change. *)
Lemma lived_record m' A' L' : seen e s' k m' A' L' -> same_config m m' -> (forall y, y <> k -> (forall oo, D s y <> Some (DOO oo)) -> D s y <> Some DZero -> D s' y = D s y) -> lived s s' i ms k m A L m' A'.
Proof.
  intros SN' SC T. destruct (sn_bids _ _ _ _ _ _ SN) as (sb & HB & _). destruct (sn_asks _ _ _ _ _ _ SN) as (sa & HA & _). destruct (sn_evs _ _ _ _ _ _ SN) as (qq & HQ & _). destruct (ws_req _ W _ _ HM) as (rq & HR).
  eapply lived_same; [exact SN'|exact SC|..]; apply T; intros; congruence.
Qed.
Lemma lived_goes m1 A1 L1 d x F m' A' L' : seen e s' k m1 A1 L1 -> (exists a b c d, m1 = set_counters m a b c d) -> goes e d s s' m x F A A1 -> 0 <= d <= 8 -> acts_for i ms = Some x ->
  seen e s' k m' A' L' -> (forall sd l v oo, In (l_owner l, oo) L -> why m x F A A' sd l v -> cause e s k m i ms A A' sd l (oo_owner oo) v) -> lived s s' i ms k m A L m' A'.
Proof.
  intros SN1 (a & b & c0 & d0 & EM) GO BD AF SN' CA. destruct (seen_same e _ _ _ _ _ _ _ _ SN1 SN') as (-> & EB & EE). split; [subst m1; exists a, b, c0, d0, (m_flags m); destruct m; reflexivity|].
  apply (goes_same e d s s' m x F A A1 A A') in GO; [|reflexivity|reflexivity|exact EB|exact EE]. destruct GO as (E & EV & GO & HE & CO). destruct numbers as (num & NN & N0 & N1 & OR). destruct (GO num NN) as [NN' LV].
  exists [], (a_evs A), E. split; [reflexivity|]. split; [exact EV|]. split; [auto|]. rewrite AF. split; [exact HE|]. split; [exact CO|]. exists num, (num + d). split; [exact NN|]. split; [subst m1; exact NN'|]. split; [lia|].
  destruct (LV N0 ltac:(lia) OR) as [_ [LI RK]]. split; [|exact RK]. intros sd l q IS RE. destruct (LI sd l q IS RE) as (q' & S & R & C). exists q'. split; [exact S|]. split; [exact R|]. intros v V oo IN. eapply CA; [exact IN|apply C, V].
Qed.
(** Instructions that bring orders of account [x]. *)
Lemma why_cause x oo (F : side -> Prop) A' : In (x, oo) L \/ D s x = Some DZero -> acts_for i ms = Some x -> key_at ms 0 = Some k -> signed_by ms (oo_owner oo) ->
  brings_orders i = true -> ((exists ix, i = INewOrderV3 ix) -> forall sd, F sd -> full e s m sd A) ->
  forall sd l v o, In (l_owner l, o) L -> why m x F A A' sd l v -> cause e s k m i ms A A' sd l (oo_owner o) v.
Proof.
  intros IN AF K0 SB WB FU sd l v o IL [[X1 X2]|[X|[[X1 X2]|(X1 & X2 & X3)]]].
  - left. split; [exact X1|]. split; [exact WB|]. split; [exact K0|]. rewrite AF. congruence.
  - right. left. exact X.
  - right. right. left. subst x. split; [exact X1|]. split; [right; exact WB|]. split; [exact K0|]. split; [exact AF|]. destruct IN as [IN|IN]; [rewrite (owner_of _ _ _ IN IL); exact SB|].
    exfalso. apply (sn_oos _ _ _ _ _ _ SN) in IL. destruct IL as [IL _]. congruence.
  - right. right. right. right. split; [exact X1|]. split; [exact WB|]. split; [exact K0|]. split; [intros Z; apply FU; assumption|exact X3].
Qed.
(** Instructions that withdraw orders of account [x]. *)
Lemma lived_cancels x oo bl al m' A' L' : In (x, oo) L -> NoDup bl -> NoDup al -> cancels e s s' k m A L x oo bl al -> seen e s' k m' A' L' ->
  (forall sd l v o, In (l_owner l, o) L -> is_fill v = false -> x = l_owner l -> cause e s k m i ms A A' sd l (oo_owner o) v) -> lived s s' i ms k m A L m' A'.
Proof.
  intros IN N1 N2 CC SN' CA. destruct (cancels_goes e s s' k m A L x oo bl al (fun _ => False) W SN IN N1 N2 CC) as (A1 & L1 & SN1 & GO). destruct CC as (A2 & oo' & WD & SN2 & ON).
  destruct (seen_same e _ _ _ _ _ _ _ _ SN2 SN') as (-> & EB & EE). destruct (seen_same e _ _ _ _ _ _ _ _ SN2 SN1) as (_ & EB1 & EE1). split; [apply same_config_refl|]. destruct numbers as (num & NN & N0 & N3 & OR).
  destruct (withdrawn_lives m A x oo A2 oo' bl al num (proj1 OR) N1 N2 WD) as (_ & E & EV & LV & RK). destruct GO as (E1 & _ & GO & _). destruct (GO num NN) as [NN' _]. rewrite Z.add_0_r in NN'.
  destruct (withdrawn_heard (acts_for i ms) m A x oo A2 oo' bl al E WD EV) as [HE CO].
  exists [], (a_evs A), E. split; [reflexivity|]. split; [congruence|]. split; [auto|]. split; [exact HE|]. split; [intros sd y I; rewrite EB in I; exact (CO sd y I)|]. exists num, num. split; [exact NN|]. split; [exact NN'|]. split; [lia|]. split; [|exact RK].
  intros sd l q IS RE. destruct (LV sd l q IS RE) as (q' & S & R & C). exists q'. split; [exact S|]. split; [unfold rests in *; rewrite EB; exact R|]. intros v V o IO. destruct (C v V). eapply CA; eassumption.
Qed.
Lemma nodup_cids x cids sd : NoDup (with_cid x cids (book_of A sd)).
Proof. destruct numbers as (num & _ & _ & _ & [SO _]). apply NoDup_filter, NoDup_filter. apply sorted_nodup, SO. Qed.
Theorem lived_step m' A' L' : seen e s' k m' A' L' -> same_config m m' -> lived s s' i ms k m A L m' A'.
Proof.
  intros SN' SC. pose proof H as H0.
  assert (OT : forall k0 m0 m1 x0 o0, deed e s s' k0 m0 m1 (Some (x0, o0)) -> (D s x0 = Some DZero \/ exists oo, D s x0 = Some (DOO oo)) -> (k0 = k -> lived s s' i ms k m A L m' A') -> lived s s' i ms k m A L m' A').
  { intros k0 m0 m1 x0 o0 DE X T. destruct (Z.eq_dec k k0) as [E|N]; [apply T; auto|]. eapply lived_other; [exact DE| |exact N|exact SN']. intros x o E. injection E as <- <-. exact X. }
  assert (ON : forall k0 m0 m1, deed e s s' k0 m0 m1 None -> (k0 = k -> lived s s' i ms k m A L m' A') -> lived s s' i ms k m A L m' A').
  { intros k0 m0 m1 DE T. destruct (Z.eq_dec k k0) as [E|N]; [apply T; auto|]. eapply lived_other; [exact DE|discriminate|exact N|exact SN']. }
  assert (CA : forall core, proc_cancel e s core ms = Ok s' -> (forall o x oo o' oo', core o x oo = Ok (o', oo') -> ob_mkt o' = ob_mkt o /\ same_id oo oo') -> withdraws_orders i = true -> acts_for i ms = key_at ms 3 ->
    (key_at ms 0 = Some k -> exists x oo bl al, key_at ms 3 = Some x /\ In (x, oo) L /\ signs ms 4 (oo_owner oo) /\ NoDup bl /\ NoDup al /\ cancels e s s' k m A L x oo bl al) -> lived s s' i ms k m A L m' A').
  { intros core HC F WO AF CE. destruct (cancel_deed e EO s core ms s' W HC F) as (k0 & x & w & m0 & oo & oo' & K0 & _ & _ & DE & (LV & _) & _). eapply OT; [exact DE|eauto|]. intros ->.
    destruct (CE K0) as (x1 & o1 & bl & al & K3 & IN & SG & N1 & N2 & CC). eapply lived_cancels; [exact IN|exact N1|exact N2|exact CC|exact SN'|]. intros sd l v o IO FV ->.
    right. right. left. split; [exact FV|]. split; [left; exact WO|]. split; [exact K0|]. split; [congruence|]. rewrite (owner_of _ _ _ IN IO). eapply signs_by. exact SG. }
  assert (RP : forall ixs, process e c s (IReplaceMany ixs) ms = Ok s' -> Forall order_ix_ok ixs -> (length ixs <= 8)%nat -> acts_for i ms = key_at ms 1 -> brings_orders i = true -> ~ (exists ix, i = INewOrderV3 ix) -> lived s s' i ms k m A L m' A').
  { intros ixs HR FO LN AF BO NO. destruct (replace_deed e EO s c ixs ms s' W HR) as (k0 & x & w & m0 & m1 & oo & oo' & K0 & _ & _ & _ & _ & DE & (LV & _) & _). eapply OT; [exact DE|eauto|]. intros ->.
    destruct (replace_effect e EO s k m A L WI G SN P c ixs ms s' LG FO LN HR K0) as (x1 & o1 & payer & s1 & K1 & IN & SG & _ & CC & PL).
    destruct (cancels_goes e s s1 k m A L x1 o1 _ _ (fun _ => True) W SN IN (nodup_cids x1 (map oi_cid ixs) Bid) (nodup_cids x1 (map oi_cid ixs) Ask) CC) as (A1 & L1 & SN1 & G1).
    destruct (placing_goes e k x1 payer _ _ s1 ixs s' PL (Forall_impl _ (fun a (X : order_ix_ok a) => ok_price a X) FO) m A1 L1 SN1) as (m2 & A2 & L2 & SN2 & CF & G2).
    assert (LZ : 0 <= zlen ixs <= 8) by (unfold zlen; lia).
    assert (G3 : goes e (0 + zlen ixs) s s' m x1 (fun _ => True) A A2) by (eapply goes_trans; [reflexivity|reflexivity|reflexivity|auto|auto|lia|lia|exact G1|exact G2]).
    eapply lived_goes; [exact SN2|exact CF|exact G3|lia|congruence|exact SN'|]. eapply why_cause; [left; exact IN|congruence|exact K0|eapply signs_by; exact SG|exact BO|intros X; contradiction]. }
  assert (CR : forall k0 m0 qa oos n, consuming i -> D s k0 = Some (DMarket m0) -> consume_with e s m0 qa oos n = Ok s' -> lived s s' i ms k m A L m' A').
  { intros k0 m0 qa oos n CI HM0 HC. destruct (consume_deed e EO s k0 m0 qa oos n s' W HM0 HC) as (W' & HM' & _ & _ & V).
    destruct (sn_bids _ _ _ _ _ _ SN) as (sb & HB & _). destruct (sn_asks _ _ _ _ _ _ SN) as (sa & HA & _). destruct (sn_evs _ _ _ _ _ _ SN) as (qq & HQ & EQ). destruct (ws_req _ W _ _ HM) as (rq & HR).
    assert (T : forall y d, D s y = Some d -> (forall oo, d <> DOO oo) -> y <> m_event_q m0 -> D s' y = D s y).
    { intros y d Y NO NE. destruct (V y NE) as [E|(_ & o & o' & (E & _) & _)]; [exact E|]. exfalso. apply (NO o). congruence. }
    destruct (ws_evq _ W _ _ HM0) as (q0 & HQ0).
    assert (TB : D s' (m_bids m) = D s (m_bids m)) by (eapply T; [exact HB|discriminate|congruence]). assert (TA : D s' (m_asks m) = D s (m_asks m)) by (eapply T; [exact HA|discriminate|congruence]).
    assert (TR : D s' (m_req_q m) = D s (m_req_q m)) by (eapply T; [exact HR|discriminate|congruence]).
    destruct (Z.eq_dec k k0) as [E|N].
    - subst k0. assert (m0 = m) by congruence. subst m0. assert (q0 = qq) by congruence. subst q0. assert (QF : proper m -> qfits m qq) by (intros PR; eapply guard_fits; eauto).
      destruct (step_consume e EO k m s qq qa oos n s' WI HM HQ QF HC) as (-> & WI' & QU & s1 & q' & CL & ES & MD').
      destruct (consume_loop_inv e EO k m oos _ _ _ _ _ (mid_start e EO k m s qq WI HM HQ QF) CL) as (_ & _ & R). destruct (R P) as (vs & E1 & _).
      assert (HQ2 : D s' (m_event_q m) = Some (DEventQ q')) by (rewrite ES, (at_q_D e m s1 q' _ (md_q _ _ _ _ _ MD')), Z.eqb_refl; reflexivity).
      assert (MM : m' = m) by (pose proof (sn_mkt _ _ _ _ _ _ SN'); congruence). subst m'.
      destruct (sn_evs _ _ _ _ _ _ SN') as (q2 & HQ3 & EQ2). assert (q2 = q') by congruence. subst q2. rewrite E1 in EQ. apply Forall2_app_inv_l in EQ. destruct EQ as (us & rest & F1 & F2 & EA).
      assert (RE : a_evs A' = rest) by (eapply views_fun; eassumption).
      assert (EB : forall sd, book_of A' sd = book_of A sd).
      { destruct (sn_bids _ _ _ _ _ _ SN) as (b1 & B1 & B2). destruct (sn_asks _ _ _ _ _ _ SN) as (a1 & A1 & A2). destruct (sn_bids _ _ _ _ _ _ SN') as (b3 & B3 & B4). destruct (sn_asks _ _ _ _ _ _ SN') as (a3 & A3 & A4). intros []; cbn [book_of]; [assert (b3 = b1) by congruence|assert (a3 = a1) by congruence]; congruence. }
      split; [exact SC|]. exists us, rest, []. split; [exact EA|]. split; [rewrite app_nil_r; exact RE|]. split; [auto|]. split; [intros v []|]. split; [apply come_refl; exact EB|].
      destruct numbers as (num & NN & N0 & N1 & OR). exists num, num. split; [exact NN|]. split; [unfold next_number in *; congruence|]. split; [lia|].
      split; [|intros sd l q _ _ _; apply served_nil]. intros sd l q _ RS. exists q. split; [apply story_still|]. split; [|intros v []]. unfold rests in *. rewrite EB. exact RS.
    - eapply lived_same; [exact SN'|exact SC|exact TB|exact TA| |exact TR]. destruct (apart _ _ _ _ _ W HM0 HM N (m_event_q m) ltac:(auto)) as (_ & _ & _ & n4 & _). eapply T; [exact HQ|discriminate|exact n4]. }
  assert (X : forall j, j = i -> process e c s j ms = Ok s' -> wf_instr j -> lived s s' i ms k m A L m' A'); [|exact (X i eq_refl H WF)].
  clear H0. intros j EI HJ WJ. destruct j; cbn [process] in HJ; try discriminate.
  - destruct (init_ran e _ _ _ _ _ HJ) as (k1 & rqa & eqa & ba & aa & cv & pv & cm & pm & p & auths & R).
    destruct (sn_bids _ _ _ _ _ _ SN) as (sb & HB & _). destruct (sn_asks _ _ _ _ _ _ SN) as (sa & HA & _). destruct (sn_evs _ _ _ _ _ _ SN) as (qq & HQ & EQ). destruct (ws_req _ W _ _ HM) as (rq & HR).
    eapply lived_same; [exact SN'|exact SC|rewrite HB|rewrite HA|rewrite HQ|rewrite HR]; (eapply WorldInit.in_kept; [exact EO|exact R|eassumption|discriminate]).
  - assert (ES : s' = s) by congruence. eapply lived_same; [exact SN'|exact SC|rewrite ES; reflexivity..].
  - unfold proc_consume in HJ. destruct (rev ms) as [|z1 [|z2 [|eqa [|mkt [|z3 z4]]]]]; try discriminate. apply rbind_ok in HJ. destruct HJ as (m0 & HM0 & HJ). apply rbind_ok in HJ. destruct HJ as (? & _ & HJ).
    apply load_market_ok in HM0. destruct HM0 as [HM0 _]. eapply CR; eauto. rewrite <- EI. eexists. left. reflexivity.
  - destruct (settle_deed e EO _ _ _ W HJ) as (k0 & x & w & m0 & m1 & oo & oo' & K0 & _ & _ & _ & DE & (LV & _) & _). eapply OT; [exact DE|eauto|]. intros ->.
    destruct (settle_ran e s ms s' W HJ) as (k2 & x2 & w2 & cw & pw & p & ref & m2 & oo2 & m2' & oo2' & ca & pa & rb & s2 & s3 & R).
    destruct R as [(spl & r1) r2 r3 r4 r5 r6 r7 r8 r9 r10]. assert (k2 = k) by (rewrite (key_map _ _ _ r1) in K0; cbn [nth_error app] in K0; congruence). subst k2.
    assert (T : touchable e s k x2) by (right; eauto). eapply lived_record; [exact SN'|exact SC|]. intros y N NO NZ.
    assert (V : D s' y = small e s k m2' (Some (x2, oo2')) y).
    { rewrite <- (put_mkt_oo_D e s k m2 m2' x2 oo2' y r3 T), <- (out_D e EO _ _ _ _ _ _ y r8), <- (out_D e EO _ _ _ _ _ _ y r9). destruct ref, rb; try (rewrite r10; reflexivity). exact (out_D e EO _ _ _ _ _ _ y r10). }
    rewrite V. unfold small. destruct (Z.eqb_spec y x2) as [->|]; [exfalso; destruct r5 as (r5 & _); exact (NO _ r5)|]. destruct (Z.eqb_spec y k); [contradiction|reflexivity].
  - destruct (disable_deed e EO _ _ _ W HJ) as (k0 & m0 & _ & _ & _ & DE & E & _). eapply ON; [exact DE|]. intros ->. pose proof (de_mkt _ _ _ _ _ _ _ DE) as HMx.
    eapply (lived_record m' A' L'); [exact SN'|exact SC|]. intros y N _ _. rewrite E, (dexd_put_owned _ _ _ _ _ _ HMx). destruct (Z.eqb_spec y k) as [EK|]; [contradiction|reflexivity].
  - destruct (sweep_ran e _ _ _ W HJ) as (k0 & m0 & pw0 & p0 & spl0 & KM0 & _ & HM0 & _ & _ & TR). destruct (sweep_deed e EO _ _ _ W HJ) as (k1 & m1 & pw & p & spl & KM & _ & _ & DE & _).
    assert (k0 = k1) by congruence. subst k0. eapply ON; [exact DE|]. intros ->. assert (m0 = m) by congruence. subst m0. eapply (lived_record m' A' L'); [exact SN'|exact SC|]. intros y N _ _.
    rewrite (out_D e EO _ _ _ _ _ _ _ TR), (dexd_put_owned _ _ _ _ _ _ HM). destruct (Z.eqb_spec y k) as [EK|]; [contradiction|reflexivity].
  - destruct (order_deed e EO _ _ _ _ _ W HJ) as (k0 & x & w & m0 & m1 & oo & oo' & K0 & _ & _ & _ & _ & DE & LO & _). eapply OT; [exact DE|destruct LO as [(LO & _)|(LO & _)]; eauto|]. intros ->.
    destruct (order_effect e EO s k m A L WI SN P (guard_room e s 1 G ltac:(lia)) c ix ms s' HJ K0 (wf_order _ WJ)) as (x1 & w1 & t & payer & oo1 & K1 & SG & _ & OW & _ & LO1 & OD).
    destruct (orders_goes e s s' k m A L ix t x1 payer oo1 SN (ok_price _ (wf_order _ WJ)) OD) as (m2 & A2 & L2 & SN2 & CF & GO).
    eapply lived_goes; [exact SN2|exact CF|exact GO|lia|rewrite <- EI; exact K1|exact SN'|]. eapply (why_cause x1 oo1); [destruct LO1 as [?|(? & _)]; auto|rewrite <- EI; exact K1|exact K0|rewrite OW; eapply signs_by; exact SG|rewrite <- EI; reflexivity|auto].
  - eapply CA; [exact HJ|cbv beta; intros * HH; eapply cancel_v2_frame; exact HH|rewrite <- EI; reflexivity|rewrite <- EI; reflexivity|]. intros K0.
    destruct (cancel_v2_effect e EO s k m A L WI SN P c _ _ ms s' HJ K0) as (x & oo & l & K3 & IN & SG & _ & _ & _ & R). do 4 eexists. split; [exact K3|]. split; [exact IN|]. split; [exact SG|]. split; [|split; [|exact R]]; destruct sd; repeat constructor; auto.
  - pose proof HJ as H1. unfold proc_cancel_cid in HJ. apply rbind_ok in HJ. destruct HJ as (? & _ & HJ). eapply CA; [exact HJ|cbv beta; intros * HH; eapply cancel_cid_frame; exact HH|rewrite <- EI; reflexivity|rewrite <- EI; reflexivity|]. intros K0.
    destruct (cancel_cid_effect e EO s k m A L WI SN P c _ ms s' H1 K0) as (_ & x9 & oo & sd & l & K3 & IN & SG & _ & _ & _ & R). do 4 eexists. split; [exact K3|]. split; [exact IN|]. split; [exact SG|]. split; [|split; [|exact R]]; destruct sd; repeat constructor; auto.
  - destruct (take_deed e EO _ _ _ _ W HJ) as (k0 & m0 & m1 & K0 & _ & _ & DE & _). eapply ON; [exact DE|]. intros ->.
    destruct (take_effect e EO s k m A L WI SN P (guard_room e s 1 G ltac:(lia)) c ix ms s' HJ K0 (wf_take_ok _ WJ)) as (w1 & t & cw & pw & _ & _ & _ & _ & TD).
    destruct (takes_goes e s s' k m A L ix t cw pw TD) as (m2 & A2 & L2 & SN2 & CF & E & EV & HE & CO & GO). destruct (seen_same e _ _ _ _ _ _ _ _ SN2 SN') as (-> & EB & EE). split; [exact SC|].
    destruct numbers as (num & NN & N0 & N1 & OR). destruct (GO num NN) as [NN' LV]. exists [], (a_evs A), E. split; [reflexivity|]. split; [congruence|]. split; [auto|]. rewrite <- EI. cbn [acts_for]. split; [exact HE|]. split; [intros sd y I; rewrite EB in I; exact (CO sd y I)|]. exists num, (num + 1). split; [exact NN|].
    split; [destruct CF as (? & ? & ? & ? & ->); exact NN'|]. split; [lia|]. destruct (LV OR) as [LV1 RK]. split; [|exact RK]. intros sd l q IS RE. destruct (LV1 sd l q IS RE) as (q' & S & R & C). exists q'. split; [exact S|]. split; [unfold rests in *; rewrite EB; exact R|].
    intros v V oo IN. destruct (C v V) as [F|F]; [|right; left; exact F]. left. split; [exact F|]. split; [reflexivity|]. split; [exact K0|discriminate].
  - destruct (close_ran e _ _ _ W HJ) as (k0 & x0 & w0 & dest0 & m0 & oo0 & oo0' & sm & KM0 & _ & HM0 & (LV0 & _) & _ & _ & _ & _ & E). destruct (close_deed e EO _ _ _ W HJ) as (k1 & x & w & dest & m1 & oo & oo' & KM & _ & DE & (LV & _) & _).
    assert (k0 = k1) by congruence. subst k0. assert (x0 = x) by congruence. subst x0. eapply OT; [exact DE|eauto|]. intros ->.
    assert (DX : D (put_lamports (put_lamports s dest0 sm) x 0) x = Some (DOO oo)) by (rewrite !dexd_lam; exact LV). eapply (lived_record m' A' L'); [exact SN'|exact SC|]. intros y N NO _.
    rewrite E, (dexd_put_owned _ _ _ _ _ _ DX), !dexd_lam. destruct (Z.eqb_spec y x) as [->|]; [exfalso; exact (NO _ LV)|reflexivity].
  - destruct (init_oo_ran e _ _ _ _ W HJ) as (k0 & x0 & w0 & m0 & auth & oo0 & rest0 & KM0 & _ & _ & HM0 & _ & _ & _ & E). destruct (init_oo_deed e EO _ _ _ _ W HJ) as (k1 & x & w & m1 & oo & rest & KM & _ & _ & DE & LO & _).
    assert (k0 = k1) by congruence. subst k0. assert (x0 = x) by congruence. subst x0.
    assert (LX : exists d, D s x = Some d /\ (d = DZero \/ exists o, d = DOO o)) by (destruct LO as [(LO & _)|(LO & _)]; eauto). destruct LX as (d & DX & LX).
    assert (LX' : D s x = Some DZero \/ exists o, D s x = Some (DOO o)) by (destruct LX as [->|(o1 & ->)]; eauto).
    eapply OT; [exact DE|exact LX'|]. intros ->. eapply (lived_record m' A' L'); [exact SN'|exact SC|]. intros y N NO NZ. rewrite E, (dexd_put_owned _ _ _ _ _ _ DX). destruct (Z.eqb_spec y x) as [->|]; [exfalso; destruct LX' as [?|(o1 & ?)]; [contradiction|exact (NO o1 ltac:(assumption))]|reflexivity].
  - destruct (prune_deed e EO _ _ _ _ W HJ) as (k0 & x & auth & m0 & oo & oo' & K0 & _ & _ & _ & _ & DE & (LV & _) & _). eapply OT; [exact DE|eauto|]. intros ->.
    destruct (prune_effect e EO s k m A L WI SN P c _ ms s' HJ K0 ltac:(cbn [wf_instr] in WJ; unfold u16 in WJ; lia)) as (x1 & o1 & bl & al & _ & IN & _ & PM & SG & N1 & N2 & _ & CC & _).
    eapply lived_cancels; [exact IN|exact N1|exact N2|exact CC|exact SN'|]. intros sd l v o IO FV OW. right. right. right. left. split; [exists limit; symmetry; exact EI|]. split; [exact K0|]. split; [|eapply signs_by; exact SG].
    apply (proj1 (prune_auth_perm m (m_prune_auth m) (ws_flags _ W _ _ HM) ltac:(unfold prune_authority; rewrite PM; reflexivity))).
  - unfold proc_consume_perm in HJ. destruct (rev ms) as [|z1 [|eqa [|mkt [|z3 z4]]]]; try discriminate. apply rbind_ok in HJ. destruct HJ as (m0 & HM0 & HJ). apply rbind_ok in HJ. destruct HJ as (? & _ & HJ).
    apply rbind_ok in HJ. destruct HJ as (? & _ & HJ). apply load_market_ok in HM0. destruct HM0 as [HM0 _]. eapply CR; eauto. rewrite <- EI. eexists. right. reflexivity.
  - eapply CA; [exact HJ|cbv beta; intros * HH; eapply cancel_cids_frame; exact HH|rewrite <- EI; reflexivity|rewrite <- EI; reflexivity|]. intros K0.
    destruct (cancel_cids_effect e EO s k m A L WI SN P c _ ms s' HJ K0) as (x & oo & K3 & IN & SG & R). do 4 eexists. split; [exact K3|]. split; [exact IN|]. split; [exact SG|]. split; [exact (nodup_cids x cids Bid)|]. split; [exact (nodup_cids x cids Ask)|exact R].
  - apply (RP [ix] HJ); [constructor; [exact (wf_order _ WJ)|constructor]|cbn; lia|rewrite <- EI; reflexivity|rewrite <- EI; reflexivity|rewrite <- EI; intros (? & ?); discriminate].
  - destruct WJ as [LN F]. apply (RP ixs HJ); [|lia|rewrite <- EI; reflexivity|rewrite <- EI; reflexivity|rewrite <- EI; intros (? & ?); discriminate]. eapply Forall_impl; [|exact F]. intros a. apply wf_order.
Qed.
End Step.

(** ** The theorems *)
Lemma seen_after s c i ms s' k m A L : history e s -> no_overflow e s -> sized s -> legal e ms -> wf_instr i -> process e c s i ms = Ok s' -> seen e s k m A L -> usable m ->
  exists m' A' L', seen e s' k m' A' L' /\ same_config m m'.
Proof.
  intros HI G SZ LG WF H SN P. destruct (market_kept e EO s c i ms s' k m (history_anytime e s HI) H (sn_mkt _ _ _ _ _ _ SN)) as (m' & HM' & SC & _).
  pose proof (process_inv e EO c s i ms s' (reachable_inv e EO s HI) G SZ LG WF H) as WI'. destruct (wi_mkt _ _ WI' k m' HM') as (seq & L' & A' & o & MS); [destruct SC as (? & ? & ? & ? & ? & ->); exact P|].
  exists m', A', L'. split; [eapply state_seen; eassumption|exact SC].
Qed.
Lemma queued_iff s s' k m A L m' A' L' E : seen e s k m A L -> seen e s' k m' A' L' -> queued e k s s' E <-> exists vs rest, a_evs A = vs ++ rest /\ a_evs A' = rest ++ E /\ (vs = [] \/ E = []).
Proof.
  intros SN SN'. split.
  - intros (m1 & A1 & L1 & m2 & A2 & L2 & vs & rest & S1 & S2 & E1 & E2 & O). destruct (seen_same e _ _ _ _ _ _ _ _ SN S1) as (_ & _ & X1). destruct (seen_same e _ _ _ _ _ _ _ _ SN' S2) as (_ & _ & X2). exists vs, rest. split; [congruence|]. split; [congruence|exact O].
  - intros (vs & rest & E1 & E2 & O). exists m, A, L, m', A', L', vs, rest. auto 8.
Qed.
Lemma queued_fun s s' k E1 E2 : queued e k s s' E1 -> queued e k s s' E2 -> E1 = E2.
Proof.
  intros (m & A & L & m' & A' & L' & vs & rest & SN & SN' & X1 & X2 & O) Q. apply (queued_iff _ _ _ _ _ _ _ _ _ _ SN SN') in Q. destruct Q as (vs2 & rest2 & Y1 & Y2 & O2).
  destruct O as [->| ->], O2 as [->| ->]; cbn [app] in *; rewrite ?app_nil_r in *.
  - rewrite <- X1 in X2. rewrite <- Y1, X2 in Y2. apply app_inv_head in Y2. exact Y2.
  - rewrite <- X1, Y1, Y2 in X2. apply (f_equal (@length _)) in X2. rewrite !app_length in X2. destruct E1; [reflexivity|cbn [length] in X2; lia].
  - rewrite <- Y1, X1, X2 in Y2. apply (f_equal (@length _)) in Y2. rewrite !app_length in Y2. destruct E2; [reflexivity|cbn [length] in Y2; lia].
  - reflexivity.
Qed.
Theorem life_step s c i ms s' k m A L m' A' L' : history e s -> no_overflow e s -> sized s -> legal e ms -> wf_instr i -> process e c s i ms = Ok s' -> seen e s k m A L -> usable m -> seen e s' k m' A' L' ->
  exists E, queued e k s s' E /\ forall sd l, In l (book_of A sd) ->
    exists q', story m sd l (l_qty l) (filter (about sd (l_key l)) E) q' /\ rests sd l A' q' /\
      forall v oo, In v E -> about sd (l_key l) v = true -> In (l_owner l, oo) L -> cause e s k m i ms A A' sd l (oo_owner oo) v.
Proof.
  intros HI G SZ LG WF H SN P SN'. pose proof (reachable_inv e EO s HI) as WI. destruct (seen_after s c i ms s' k m A L HI G SZ LG WF H SN P) as (m2 & A2 & L2 & SN2 & SC).
  assert (m2 = m') by (pose proof (sn_mkt _ _ _ _ _ _ SN2); pose proof (sn_mkt _ _ _ _ _ _ SN'); congruence). subst m2.
  destruct (lived_step s s' c i ms k m A L WI G LG WF H SN P m' A' L' SN' SC) as (_ & vs & rest & E & E1 & E2 & O & _ & _ & num & num' & NN & NN' & LE & LV & _).
  exists E. split; [apply (queued_iff s s' k m A L m' A' L' E SN SN'); exists vs, rest; intuition|]. intros sd l IL. destruct (numbers s k m A L WI G SN P) as (n2 & NN2 & _ & _ & [SO IU]). assert (n2 = num) by (unfold next_number in *; congruence). subst n2.
  destruct (LV sd l (l_qty l) (IU _ _ IL)) as (q' & S & R & C).
  - left. split; [apply (resting_pos s k m A L WI SN P sd l IL)|rewrite set_qty_same; exact IL].
  - exists q'. split; [exact S|]. split; [exact R|]. intros v oo IV AV IO. apply C; [apply filter_In; auto|exact IO].
Qed.
(** What happens to an order over a history: [l] rests with [q] lots, or is gone for good. *)
Definition follows (s : store) (k : Z) (sd : side) (l : leaf) (q : Z) (m : market) (A : astate) : Prop :=
  exists num, next_number e s m num /\ issued num sd (l_key l) /\ rests sd l A q.
Lemma transact_cases c s b ms : is_bytes b -> transact e c s b ms = s \/ exists i, wf_instr i /\ process e c s i ms = Ok (transact e c s b ms).
Proof.
  intros HB. unfold transact. destruct (process_bytes e c s b ms) as [s'|?|] eqn:E; [|auto|auto]. right. unfold process_bytes in E. apply rbind_ok in E. destruct E as (i & U & E).
  destruct (unpack b) as [i0|] eqn:UB; cbn [ok_or] in U; [|discriminate]. injection U as ->. destruct (unpack_pack _ _ HB UB) as [WF _]. eauto.
Qed.
Lemma story_lots m m' sd l q r q' : same_config m m' -> story m' sd l q r q' -> story m sd l q r q'.
Proof. intros SC. apply story_mkt; destruct SC as (? & ? & ? & ? & ? & ->); reflexivity. Qed.
Theorem queued_always s c b ms k m A L : history e s -> no_overflow e s -> sized s -> is_bytes b -> legal e ms -> seen e s k m A L -> usable m -> exists E, queued e k s (transact e c s b ms) E.
Proof.
  intros HI G SZ HB LG SN P. destruct (transact_cases c s b ms HB) as [->|(i & WF & H)].
  - exists []. apply (queued_iff _ _ _ _ _ _ _ _ _ _ SN SN). exists [], (a_evs A). rewrite app_nil_r. auto.
  - destruct (seen_after _ _ _ _ _ _ _ _ _ HI G SZ LG WF H SN P) as (m' & A' & L' & SN' & SC). destruct (life_step _ _ _ _ _ _ _ _ _ _ _ _ HI G SZ LG WF H SN P SN') as (E & Q & _). eauto.
Qed.
Theorem queued_once s c b ms k m A L : history e s -> no_overflow e s -> sized s -> is_bytes b -> legal e ms -> seen e s k m A L -> usable m ->
  exists E, queued e k s (transact e c s b ms) E /\ forall E', queued e k s (transact e c s b ms) E' -> E' = E.
Proof. intros HI G SZ HB LG SN P. destruct (queued_always s c b ms k m A L HI G SZ HB LG SN P) as (E & Q). exists E. split; [exact Q|]. intros E' Q'. eapply queued_fun; eassumption. Qed.
Theorem life k s E s' : stretch e k s E s' -> history e s -> forall m A L, seen e s k m A L -> usable m ->
  history e s' /\ exists m' A' L', seen e s' k m' A' L' /\ same_config m m' /\
  forall sd l q, follows s k sd l q m A -> exists q', story m sd l q (filter (about sd (l_key l)) E) q' /\ follows s' k sd l q' m' A' /\ (0 < q -> served_first sd l E).
Proof.
  intros ST HI m A L SN P. induction ST as [|E s1 c b ms E1 ST IH G SZ HB LG Q|E s1 s2 ST IH R].
  - split; [exact HI|]. exists m, A, L. split; [exact SN|]. split; [apply same_config_refl|]. intros sd l q FO. exists q. split; [apply story_still|]. split; [exact FO|intros _; apply served_nil].
  - destruct IH as (HI1 & m1 & A1 & L1 & SN1 & SC1 & IH). split; [apply reach_tx; assumption|]. assert (P1 : usable m1) by (destruct SC1 as (? & ? & ? & ? & ? & ->); exact P).
    destruct (transact_cases c s1 b ms HB) as [ES|(i & WF & H)].
    + rewrite ES in *. exists m1, A1, L1. split; [exact SN1|]. split; [exact SC1|]. assert (E1 = []) as ->.
      { eapply queued_fun; [exact Q|]. apply (queued_iff _ _ _ _ _ _ _ _ _ _ SN1 SN1). exists [], (a_evs A1). rewrite app_nil_r. auto. }
      rewrite app_nil_r. exact IH.
    + set (s2 := transact e c s1 b ms) in *. destruct (seen_after _ _ _ _ _ _ _ _ _ HI1 G SZ LG WF H SN1 P1) as (m2 & A2 & L2 & SN2 & SC2).
      destruct (lived_step s1 s2 c i ms k m1 A1 L1 (reachable_inv e EO s1 HI1) G LG WF H SN1 P1 m2 A2 L2 SN2 SC2) as (_ & vs & rest & E2 & X1 & X2 & O & _ & _ & num & num' & NN & NN' & LE & LV & RK).
      assert (E2 = E1) as -> by (eapply queued_fun; [|exact Q]; apply (queued_iff _ _ _ _ _ _ _ _ _ _ SN1 SN2); exists vs, rest; intuition). exists m2, A2, L2. split; [exact SN2|]. split; [eapply same_config_trans; eassumption|].
      intros sd l q FO. destruct (IH sd l q FO) as (q1 & S1 & (n1 & N1 & IS & RE) & SV). assert (n1 = num) by (unfold next_number in *; congruence). subst n1. destruct (LV sd l q1 IS RE) as (q2 & S2 & R2 & _).
      exists q2. split; [rewrite in_filter_app; eapply story_app; [exact S1|eapply story_lots; eassumption]|]. split; [exists num'; split; [exact NN'|]; split; [eapply issued_weaken; [exact LE|exact IS]|exact R2]|].
      intros Q0. apply served_app; [exact (SV Q0)|]. destruct (Z.eq_dec q1 0) as [Z0|NZ]; [left; eapply story_ended; eassumption|right; apply (RK sd l q1 IS RE); destruct RE as [[? _]|[? _]]; lia].
  - destruct IH as (HI1 & m1 & A1 & L1 & SN1 & SC1 & IH). assert (HI2 : history e s2) by (eapply reach_env; eassumption). split; [exact HI2|]. assert (P1 : usable m1) by (destruct SC1 as (? & ? & ? & ? & ? & ->); exact P).
    assert (KP : forall y d, D s1 y = Some d -> d <> DZero -> ~ is_closed d -> D s2 y = Some d) by (intros; eapply rely_kept; eassumption).
    assert (HM2 : D s2 k = Some (DMarket m1)) by (apply KP; [exact (sn_mkt _ _ _ _ _ _ SN1)|discriminate|apply nc; discriminate]). destruct (market_seen e EO s2 k m1 HI2 HM2 P1) as (A2 & L2 & SN2).
    destruct (sn_bids _ _ _ _ _ _ SN1) as (sb & HB & _). destruct (sn_asks _ _ _ _ _ _ SN1) as (sa & HA & _). destruct (ws_req _ (wi_str _ _ (reachable_inv e EO s1 HI1)) _ _ (sn_mkt _ _ _ _ _ _ SN1)) as (rq & HR).
    assert (EB : forall sd, book_of A2 sd = book_of A1 sd).
    { destruct (sn_bids _ _ _ _ _ _ SN1) as (b1 & B1 & B2). destruct (sn_asks _ _ _ _ _ _ SN1) as (a1 & C1 & C2). destruct (sn_bids _ _ _ _ _ _ SN2) as (b3 & B3 & B4). destruct (sn_asks _ _ _ _ _ _ SN2) as (a3 & C3 & C4).
      apply KP in B1; [|discriminate|apply nc; discriminate]. apply KP in C1; [|discriminate|apply nc; discriminate]. intros []; cbn [book_of]; congruence. }
    exists m1, A2, L2. split; [exact SN2|]. split; [exact SC1|]. intros sd l q FO. destruct (IH sd l q FO) as (q1 & S1 & (n1 & N1 & IS & RE) & SV). exists q1. split; [exact S1|]. split; [|exact SV]. exists n1.
    split; [unfold next_number in *; apply KP; [exact N1|discriminate|apply nc; discriminate]|]. split; [exact IS|]. unfold rests in *. rewrite EB. exact RE.
Qed.
Lemma follows_now s k m A L sd l : history e s -> seen e s k m A L -> usable m -> In l (book_of A sd) -> follows s k sd l (l_qty l) m A /\ 0 < l_qty l.
Proof.
  intros HI SN P I. pose proof (reachable_inv e EO s HI) as WI. destruct (seen_state e s k m A L WI SN P) as (seq & o & MS). pose proof (resting_pos s k m A L WI SN P sd l I) as [Q _]. split; [|exact Q].
  exists seq. split; [exact (ms_req _ _ _ _ _ _ _ MS)|]. split; [exact (ci_keys _ _ _ _ (ms_inv _ _ _ _ _ _ _ MS) _ _ I)|]. left. split; [exact Q|rewrite set_qty_same; exact I].
Qed.
Theorem life_of_an_order k s E s' m A L m' A' L' sd l : history e s -> stretch e k s E s' -> seen e s k m A L -> usable m -> seen e s' k m' A' L' -> In l (book_of A sd) ->
  exists q', story m sd l (l_qty l) (filter (about sd (l_key l)) E) q' /\ rests sd l A' q'.
Proof.
  intros HI ST SN P SN' I. destruct (life k s E s' ST HI m A L SN P) as (_ & m2 & A2 & L2 & SN2 & SC & LF). destruct (LF sd l _ (proj1 (follows_now s k m A L sd l HI SN P I))) as (q' & S & (n & _ & _ & R) & _). exists q'. split; [exact S|].
  destruct (seen_same e _ _ _ _ _ _ _ _ SN2 SN') as (_ & EB & _). unfold rests in *. rewrite EB. exact R.
Qed.
(** The books are balanced over the whole life of an order. *)
Theorem life_balance k s E s' m A L m' A' L' sd l : history e s -> stretch e k s E s' -> seen e s k m A L -> usable m -> seen e s' k m' A' L' -> In l (book_of A sd) ->
  exists q' n, rests sd l A' q' /\ 0 <= n <= l_qty l - q' /\
    worth m sd l = zsum taken (filter (about sd (l_key l)) E) + part m sd l q' /\
    zsum spent (filter (about sd (l_key l)) E) = part m sd l n /\ zsum brought (filter (about sd (l_key l)) E) = fetch m sd l n /\
    (q' = 0 <-> exists v, In v E /\ about sd (l_key l) v = true /\ ev_final v = true).
Proof.
  intros HI ST SN P SN' I. destruct (life_of_an_order k s E s' m A L m' A' L' sd l HI ST SN P SN' I) as (q' & S & R). destruct (resting_pos s k m A L (reachable_inv e EO s HI) SN P sd l I) as [Q PR].
  destruct (story_sums _ _ _ _ _ _ S ltac:(lia)) as [S1 (n & N & S2 & S3)]. exists q', n. split; [exact R|]. split; [exact N|]. split; [rewrite <- S1; unfold worth, part; destruct sd; reflexivity|]. split; [exact S2|]. split; [exact S3|].
  rewrite (story_final _ _ _ _ _ _ S Q); [|destruct P as (? & ? & _); unfold part; destruct sd; nia]. split; intros (v & V); exists v; rewrite filter_In in *; tauto.
Qed.
(** Whatever happens, orders are served by price and then by time. *)
Theorem priority k s E s' m A L sd l : history e s -> stretch e k s E s' -> seen e s k m A L -> usable m -> In l (book_of A sd) -> served_first sd l E.
Proof. intros HI ST SN P I. destruct (life k s E s' ST HI m A L SN P) as (_ & m2 & A2 & L2 & SN2 & SC & LF). destruct (follows_now s k m A L sd l HI SN P I) as [FO Q]. destruct (LF sd l _ FO) as (_ & _ & _ & SV). exact (SV Q). Qed.
Lemma issued_parts num sd id : num <= B64 -> issued num sd id -> 0 < price_of id < B64 /\ 0 <= number_of sd id < num /\ id = numbered sd (price_of id) (number_of sd id).
Proof.
  intros B (p & n & PR & N & E). unfold seq_part in E. assert (X : id / B64 = p /\ id mod B64 = match sd with Bid => B64 - 1 - n | Ask => n end).
  { assert (R : 0 <= match sd with Bid => B64 - 1 - n | Ask => n end < B64) by (destruct sd; lia). rewrite E. split; [rewrite Z.add_comm, Z.div_add by lia; rewrite Z.div_small by exact R; lia|rewrite Z.add_comm, Z_mod_plus_full; apply Z.mod_small, R]. }
  destruct X as [X1 X2]. unfold price_of, number_of, numbered. rewrite X1, X2. rewrite E. destruct sd; repeat split; try lia.
Qed.
(** An order that comes later, in the same place, ranks behind. *)
Theorem later_ranks_behind k s E s' m A L m' A' L' sd l y : history e s -> stretch e k s E s' -> seen e s k m A L -> usable m -> seen e s' k m' A' L' ->
  In l (book_of A sd) -> In y (book_of A' sd) -> (forall z, In z (book_of A sd) -> l_key z <> l_key y) -> l_price y = l_price l -> outranks sd (l_key l) (l_key y).
Proof.
  intros HI ST SN P SN' IL IY NEW PR. right. split; [symmetry; exact PR|].
  destruct (life k s E s' ST HI m A L SN P) as (HI' & m2 & A2 & L2 & SN2 & SC & LF). assert (m2 = m') by (pose proof (sn_mkt _ _ _ _ _ _ SN2); pose proof (sn_mkt _ _ _ _ _ _ SN'); congruence). subst m2.
  assert (P' : usable m') by (destruct SC as (? & ? & ? & ? & ? & ->); exact P). destruct (seen_state e s k m A L (reachable_inv e EO s HI) SN P) as (num & o & MS). pose proof (ms_inv _ _ _ _ _ _ _ MS) as C.
  destruct (seen_state e s' k m' A' L' (reachable_inv e EO s' HI') SN' P') as (num' & o' & MS'). pose proof (ms_inv _ _ _ _ _ _ _ MS') as C'. pose proof (ci_seq _ _ _ _ C) as B. pose proof (ci_seq _ _ _ _ C') as B'.
  destruct (issued_parts num sd (l_key l) ltac:(lia) (ci_keys _ _ _ _ C _ _ IL)) as (_ & NL & _). destruct (issued_parts num' sd (l_key y) ltac:(lia) (ci_keys _ _ _ _ C' _ _ IY)) as (PY & NY & EY).
  assert (LATE : num <= number_of sd (l_key y)); [|lia]. destruct (Z.le_gt_cases num (number_of sd (l_key y))) as [|LT]; [assumption|exfalso].
  assert (FO : follows s k sd y 0 m A).
  { exists num. split; [exact (ms_req _ _ _ _ _ _ _ MS)|]. split; [|right; auto]. exists (price_of (l_key y)), (number_of sd (l_key y)). split; [exact PY|]. split; [lia|]. exact EY. }
  destruct (LF sd y 0 FO) as (q' & S & (n & _ & _ & R) & _). destruct (story_0 _ _ _ _ _ _ S eq_refl) as [_ ->]. destruct R as [[? _]|[_ R]]; [lia|].
  destruct (seen_same e _ _ _ _ _ _ _ _ SN2 SN') as (_ & EB & _). rewrite <- EB in R. exact (R y IY eq_refl).
Qed.
End Main.
Theorem rank_read sd p n : 0 <= n < B64 -> price_of (numbered sd p n) = p /\ number_of sd (numbered sd p n) = n.
Proof.
  intros N. unfold price_of, number_of, numbered. assert (R : 0 <= match sd with Bid => B64 - 1 - n | Ask => n end < B64) by (destruct sd; lia).
  rewrite Z.add_comm, Z.div_add, Z_mod_plus_full, (Z.mod_small _ _ R), (Z.div_small _ _ R) by lia. destruct sd; lia.
Qed.
