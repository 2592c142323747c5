(** Processing the backlog and what is accepted afterwards. *)
From Coq Require Import Permutation.
From Verif Require Import Base BaseProofs Fees ListSum Queue QueueProofs Codec CodecProofs Critbit CritbitSlab Market Matching Slots MatchSteps MatchRefine Ledger LedgerSteps LedgerRun MatchSpec Core CoreInv CoreOrder CoreNew CoreCancel Instr
  Store Process StoreProofs World WorldInv WorldLoad WorldRun WorldConsume WorldMain WorldSpec WorldFacts WorldCancel WorldCrank WorldPay WorldAuth WorldRights WorldSizes ExitSpec WorldExit OpenSpec PlaceSpec TakeSpec WorldPlace WorldTake AbsentSpec AbsentProofs BacklogSpec.

Lemma zrange_nodup n : forall lo, NoDup (zrange lo n).
Proof. induction n as [|n IH]; intros lo; cbn [zrange]; constructor; [rewrite zrange_In; lia|apply IH]. Qed.

Section Backlog.
Variable e : env.
Hypothesis EO : env_ok e.
Variable c : clock.
Notation D := (dexd e).

Section Cleared.
Variables (s s1 : store) (k : Z) (m : market) (A : astate) (L L1 : list (Z * open_orders)).
Hypothesis (GD : good e s) (SN : seen e s k m A L) (P : usable m) (GD1 : good e s1) (K1 : kept s s1) (CL : cleared e s s1 k m A L L1).
Let A1 := mkA (a_bids A) (a_asks A) [].
Let S1 : seen e s1 k m A1 L1 := cl_seen _ _ _ _ _ _ _ _ CL.
Let T1 := cl_tokens _ _ _ _ _ _ _ _ CL.
Let WI1 := reachable_inv e EO s1 (gd_h _ _ GD1).

Lemma pay_same v w mint amt amt' : amt' <= amt -> can_pay s v w mint amt -> can_pay s1 v w mint amt'.
Proof. intros LE (t & H1 & H2 & H3 & H4 & H5 & H6). exists t. rewrite T1, (kp_len _ _ K1). repeat (split; [assumption || lia|]). destruct H6 as [[? ?]|?]; [left; split; [assumption|lia]|right; assumption]. Qed.
Lemma disc_same w disc : discount_ok s w disc -> discount_ok s1 w disc.
Proof. intros [->|(d & t & H1 & H2 & H3 & H4 & H5)]; [left; reflexivity|right]. exists d, t. rewrite T1, (kp_len _ _ K1). auto. Qed.
Lemma thaw_same v : thawed s v -> thawed s1 v.
Proof. intros (t & H). exists t. rewrite T1. exact H. Qed.
Lemma queue_after : exists q, D s1 (m_event_q m) = Some (DEventQ q) /\ 128 <= zlen (q_buf q) /\ q_list q = [].
Proof.
  destruct (sn_evs _ _ _ _ _ _ S1) as (q & HQ & VS). exists q. split; [exact HQ|]. split; [exact (history_roomy e s1 (gd_h _ _ GD1) _ _ HQ)|]. cbn [A1 a_evs] in VS. inversion VS. reflexivity.
Qed.
(** A slot is free once the queue is empty, unless 128 orders rest. *)
Lemma slot_after x oo1 : In (x, oo1) L1 -> (own_count x A < 128)%nat -> exists j, 0 <= j < 128 /\ is_free oo1 j = true.
Proof.
  intros IN FEW. destruct (existsb (is_free oo1) slots128) eqn:B.
  - apply existsb_exists in B. destruct B as (j & IJ & F). exists j. split; [apply slots128_In; exact IJ|exact F].
  - exfalso. destruct (slots_agree e EO s1 k m A1 L1 (gd_h _ _ GD1) S1 P) as (_ & _ & SL & _).
    assert (INC : incl slots128 (map l_slot (own_orders x (a_bids A) ++ own_orders x (a_asks A)))).
    { intros j IJ. assert (J : 0 <= j < 128) by (apply slots128_In; exact IJ).
      assert (F : is_free oo1 j = false). { destruct (is_free oo1 j) eqn:F; [|reflexivity]. assert (X : existsb (is_free oo1) slots128 = true) by (apply existsb_exists; eauto). congruence. }
      destruct (SL x oo1 j IN J F) as [[(l & IL & _ & OL & LS) _]|[_ (E & f & EQ & _)]].
      - apply in_map_iff. exists l. split; [exact LS|]. apply in_or_app. unfold own_orders. rewrite !filter_In, OL, Z.eqb_refl. destruct (side_at oo1 j); cbn [book_of A1 a_bids a_asks] in IL; auto.
      - unfold slot_events, A1 in EQ. cbn [a_evs filter] in EQ. destruct E; discriminate. }
    assert (ND : NoDup slots128) by apply zrange_nodup.
    pose proof (NoDup_incl_length ND INC) as LE. rewrite map_length, app_length in LE. unfold own_count in FEW. change (length slots128) with 128%nat in LE. lia.
Qed.

Lemma cancels_after sd l x oo : In (x, oo) L -> In l (book_of A sd) -> l_owner l = x -> carried_out e c s1 (ICancelV2 sd (l_key l)) (cancel_accounts m k x (oo_owner oo)).
Proof.
  intros IN IL OL. destruct (cl_booked _ _ _ _ _ _ _ _ CL x oo IN) as (oo1 & IN1 & BK). destruct (booked_sums _ _ _ BK) as (_ & _ & _ & OW).
  destruct queue_after as (q & HQ & R & E).
  destruct (cancel_succeeds e s1 k m A1 L1 WI1 S1 P c sd l x oo1 [] IN1) as (s' & PR).
  - destruct sd; exact IL.
  - exact OL.
  - exists q. split; [exact HQ|]. rewrite E. change (zlen (@nil event)) with 0. lia.
  - exists s'. rewrite OW in PR. exact PR.
Qed.

(** What the account is after the events. *)
Lemma account_after x w oo : account_for e s c k m L x w oo -> (own_count x A < 128)%nat ->
  exists oo1, account_for e s1 c k m L1 x w oo1 /\ (exists j, 0 <= j < 128 /\ is_free oo1 j = true) /\
    oo_coin_free oo <= oo_coin_free oo1 /\ oo_pc_free oo <= oo_pc_free oo1 /\ oo_coin_total oo1 = coin_due x oo A /\ oo_pc_total oo1 = pc_due x oo A.
Proof.
  intros [[IN OW]|(HZ & LEN & EX & PM & BF)] FEW.
  - destruct (cl_booked _ _ _ _ _ _ _ _ CL x oo IN) as (oo1 & IN1 & BK). destruct (booked_sums _ _ _ BK) as (B1 & B2 & _ & B4). exists oo1.
    assert (F : Forall ev_ok (own_events x (a_evs A))).
    { apply Forall_forall. intros v Hv. apply filter_In in Hv. pose proof (pending_ok e EO s k m A L (gd_h _ _ GD) SN P) as PO. rewrite Forall_forall in PO. apply PO. tauto. }
    destruct (booked_moves _ _ _ F BK) as (_ & _ & _ & (N1 & N2 & _) & _).
    split; [left; split; [exact IN1|congruence]|]. split; [exact (slot_after x oo1 IN1 FEW)|]. split; [exact N1|]. split; [exact N2|]. split; [exact B1|exact B2].
  - exists oo. pose proof BF as (_ & _ & _ & _ & C0 & _ & P0 & _ & FR).
    assert (NL : ~ In x (map fst L)). { intros I. apply in_map_iff in I. destruct I as ((y & o) & E & I). cbn [fst] in E. subst y. apply (sn_oos _ _ _ _ _ _ SN) in I. destruct I as [I _]. congruence. }
    assert (NE : own_events x (a_evs A) = []).
    { unfold own_events. apply filter_none. intros v Hv. destruct (Z.eqb_spec (ev_owner v) x) as [E|]; [|reflexivity]. exfalso. apply NL. rewrite <- E. eapply (event_owners e EO); [exact GD|exact SN|exact P|exact Hv]. }
    assert (NI : ~ In x (m_event_q m :: map ev_owner (a_evs A))).
    { intros [E|I].
      - destruct (sn_evs _ _ _ _ _ _ SN) as (q & HQ & _). congruence.
      - apply in_map_iff in I. destruct I as (v & E & Hv). apply NL. rewrite <- E. eapply (event_owners e EO); [exact GD|exact SN|exact P|exact Hv]. }
    split. { right. rewrite (only_D e _ _ _ _ (cl_only _ _ _ _ _ _ _ _ CL) NI), (kp_len _ _ K1), (kp_lam _ _ K1). auto. }
    split; [exists 0; split; [lia|apply FR; lia]|]. split; [lia|]. split; [lia|]. unfold coin_due, pc_due. rewrite NE. cbn [zsum]. lia.
Qed.

Lemma few_events opp sd lim x st limit : 0 <= limit <= 31 -> 0 + events_needed opp sd lim x st limit <= 128.
Proof. intros B. unfold events_needed, most_rounds. destruct sd, st; try destruct (own_in_reach _ _ _ _); lia. Qed.

Lemma orders_after : ~ disabled m -> thawed s (m_coin_vault m) -> thawed s (m_pc_vault m) ->
  forall ix x w oo payer rent disc, ready e s c k m A L ix x w oo payer disc -> carried_out e c s1 (INewOrderV3 ix) (order_accounts m k x w payer rent disc).
Proof.
  intros ND TC TP ix x w oo payer rent disc [AC FEW OK TM LM PAY DS PY WH RM LK CO PC OWN].
  destruct (account_after x w oo AC FEW) as (oo1 & AC1 & FR & F1 & F2 & C1 & P1). destruct queue_after as (q & HQ & R & _).
  assert (LE : to_pay ix (m_coin_lot m) oo1 <= to_pay ix (m_coin_lot m) oo) by (unfold to_pay; destruct (oi_side ix); lia).
  apply (order_succeeds e EO s1 k m A1 L1 WI1 S1 P c ix x w oo1 payer rent disc q AC1 ND OK TM FR).
  - eapply pay_same; eassumption.
  - apply disc_same. exact DS.
  - exact PY.
  - exact WH.
  - apply thaw_same. exact TC.
  - apply thaw_same. exact TP.
  - intros t Ht. rewrite T1 in Ht. specialize (RM t Ht). lia.
  - exact LK.
  - rewrite C1. destruct (oi_side ix); lia.
  - rewrite P1. destruct (oi_side ix); lia.
  - intros E1 E2. replace (book_of A1 (other (oi_side ix))) with (book_of A (other (oi_side ix))) by (destruct (oi_side ix); reflexivity). exact (OWN E1 E2).
  - exact HQ.
  - change (zlen (a_evs A1)) with 0. etransitivity; [apply few_events|exact R]. pose proof (ok_limit _ OK). lia.
Qed.
Lemma takes_after : ~ disabled m -> thawed s (m_coin_vault m) -> thawed s (m_pc_vault m) ->
  forall sd price qty pc limit cw pw w p disc, ready_take e s k m sd price qty pc limit cw pw w p disc ->
  carried_out e c s1 (ISendTake (mkTakeIx sd price qty pc 0 0 limit)) (take_accounts m k cw pw w p disc).
Proof.
  intros ND TC TP sd price qty pc limit cw pw w p disc [HP HQT HPC LM DB PAY WL DS VS WH PD RM]. destruct queue_after as (q & HQ & R & _).
  destruct (take_succeeds e EO s1 k m A1 L1 WI1 S1 P c sd price qty pc limit cw pw w p disc q ND HP HQT HPC) as (s' & sp & gn & _ & G & _ & PR).
  - lia.
  - exact DB.
  - eapply pay_same; [apply Z.le_refl|exact PAY].
  - destruct WL as (t & H). exists t. rewrite T1, (kp_len _ _ K1). exact H.
  - apply disc_same. exact DS.
  - exact VS.
  - exact WH.
  - exact PD.
  - apply thaw_same. exact TC.
  - apply thaw_same. exact TP.
  - intros t Ht. rewrite T1 in Ht. exact (RM t Ht).
  - exact HQ.
  - change (zlen (a_evs A1)) with 0. etransitivity; [apply few_events; exact LM|exact R].
  - exists s'. unfold take_accounts. rewrite (PR 0 0). replace (minimum sd 0 0) with 0 by (destruct sd; reflexivity). destruct (Z.leb_spec 0 gn); [reflexivity|lia].
Qed.
End Cleared.

Theorem backlog s k m A L : good e s -> seen e s k m A L -> usable m -> (needs_crank_authority m -> ~ is_pda e (m_crank_auth m)) ->
  exists s1 L1, run e c (cranker m) (length (a_evs A)) s s1 /\ history e s1 /\ no_overflow e s1 /\ sized s1 /\ cleared e s s1 k m A L L1 /\ at_work e c s s1 k m A L.
Proof.
  intros GD SN P CA. destruct (all_events_by e EO c k m P CA (a_evs A) s A L GD SN eq_refl) as (s1 & L1 & R1 & G1 & S1 & K1 & KS1 & B1 & O1 & T1).
  assert (CL : cleared e s s1 k m A L L1) by (constructor; assumption).
  exists s1, L1. split; [exact R1|]. split; [exact (gd_h _ _ G1)|]. split; [exact (gd_g _ _ G1)|]. split; [exact (gd_s _ _ G1)|]. split; [exact CL|]. constructor.
  - intros sd l x oo. eapply cancels_after; eassumption.
  - intros ND TC TP ix x w oo payer rent disc. eapply orders_after; eassumption.
  - intros ND TC TP sd price qty pc limit cw pw w p disc. eapply takes_after; eassumption.
Qed.
End Backlog.
