(** A whole order keeps the market invariant. *)
From Coq Require Import Permutation.
From Verif Require Import Base BaseProofs Fees FeesSpec FeesProofs Critbit CritbitProofs CritbitSlab CritbitOps
  CritbitSpec CritbitRefine ListSum Queue QueueSpec QueueProofs Codec Market Matching MatchSteps MatchRefine
  MatchAsk MatchBid MatchRun Ledger LedgerSteps LedgerSums MatchSpec LedgerRun MatchReport MatchOrder MatchFacts
  Slots Core CoreInv.

Lemma rounds_seen k q bk tr q' bk' : rounds k q bk tr q' bk' -> forall b t, In (b, t) tr ->
  exists l0, In l0 bk /\ same_order l0 b.
Proof.
  induction 1 as [q bk|q bk b t tr q' bk' B _ T _ _ _ R IH]; intros b0 t0 Hin; [destruct Hin|].
  destruct Hin as [[= <- <-]|Hin].
  - exists b. split; [apply B|apply same_order_refl].
  - destruct (IH _ _ Hin) as (l1 & H1 & S1). unfold take_from in H1. apply in_flat_map in H1. destruct H1 as (x & Hx & Hl1).
    exists x. split; [assumption|]. eapply same_order_trans; [|exact S1].
    destruct (l_key x =? l_key b).
    + destruct (l_qty x =? t); [destruct Hl1|]. destruct Hl1 as [<-|[]]. unfold same_order. cbn. intuition lia.
    + destruct Hl1 as [<-|[]]. apply same_order_refl.
Qed.

Section Effect.
Variables (o : obs) (A : astate) (sd : side) (ot : order_type) (id owner slot : Z) (t : tier)
  (qty pc cid : Z) (st : self_trade) (limit : nat) (o' : obs) (pr : proceeds).
Variables (A' : astate) (tr : list round) (q' n : Z) (E : list event_view) (F R : Z).
Hypothesis (H : order_result o A sd ot id owner slot t qty pc cid st limit o' pr A' tr q' n E F R).
Hypothesis (NZ : forall s l, In l (book_of A s) -> l_owner l <> 0).
Let cl := m_coin_lot (ob_mkt o). Let pl := m_pc_lot (ob_mkt o).
Let p := params ot id owner slot t cid st.

Lemma order_leaves s l : In l (book_of A' s) ->
  (exists l0, In l0 (book_of A s) /\ same_order l0 l) \/
  (s = sd /\ l_key l = id /\ l_owner l = owner /\ l_slot l = slot /\ l_cid l = cid /\ ot_post_allowed ot = true).
Proof.
  intros Hl. pose proof (or_report _ _ _ _ _ _ _ _ _ _ _ _ _ _ _ _ _ _ _ _ _ _ H) as [r1 r2 r3 (gs & Ee & r4 & r5 & r6)].
  destruct (side_cases sd s) as [->| ->].
  - apply finish_cases in r6. destruct r6 as [(E1 & _)|[(_ & _ & AL & _ & _ & E1)|(_ & _ & AL & _ & _ & w & E0 & _ & E1 & _)]].
    + left. exists l. split; [congruence|apply same_order_refl].
    + rewrite E1 in Hl. apply lins_In in Hl. destruct Hl as [->|Hl].
      * right. repeat split; assumption.
      * left. exists l. split; [assumption|apply same_order_refl].
    + rewrite E1 in Hl. apply lins_In in Hl. destruct Hl as [->|Hl].
      * right. repeat split; assumption.
      * left. exists l. split; [|apply same_order_refl]. eapply ldel_In. eassumption.
  - left. eapply rounds_less; eauto.
Qed.
Lemma taker_own : tk_owner (the_taker sd id owner slot t cid st) = owner. Proof. reflexivity. Qed.

Definition new_ev_of (v : event_view) : Prop :=
  (owner <> 0 /\ ev_owner v = owner /\ ev_slot v = slot /\ ev_cid v = cid) \/
  exists s b, In b (book_of A s) /\ ev_owner v = l_owner b /\ ev_slot v = l_slot b /\ ev_cid v = l_cid b.
Lemma order_events v : In v (a_evs A') -> In v (a_evs A) \/ new_ev_of v.
Proof.
  rewrite (or_evs _ _ _ _ _ _ _ _ _ _ _ _ _ _ _ _ _ _ _ _ _ _ H). intros Hv. apply in_app_or in Hv. destruct Hv as [Hv|Hv]; [auto|right].
  pose proof (or_report _ _ _ _ _ _ _ _ _ _ _ _ _ _ _ _ _ _ _ _ _ _ H) as [r1 r2 r3 (gs & Ee & r4 & r5 & r6)].
  rewrite r4 in Hv. apply in_app_or in Hv. destruct Hv as [Hv|Hv].
  - assert (EX : exists x g, In x tr /\ In v g /\ reported cl pl (the_taker sd id owner slot t cid st) x g).
    { clear - r5 Hv. induction r5 as [|x g xs gs H1 H2 IH]; cbn in Hv; [destruct Hv|].
      apply in_app_or in Hv. destruct Hv as [Hv|Hv].
      - exists x, g. split; [left; reflexivity|]. split; assumption.
      - destruct (IH Hv) as (x' & g' & G1 & G2). exists x', g'. split; [right; assumption|assumption]. }
    destruct EX as ([b n0] & g & Hx & Hg & RP). destruct (rounds_seen _ _ _ _ _ _ r1 _ _ Hx) as (l0 & L1 & S1 & S2 & S3 & S4 & S5 & S6).
    unfold reported in RP. destruct (self _ (b, n0)) eqn:SE.
    + destruct RP as (u & s0 & ->). destruct Hg as [<-|[<-|[]]].
      * right. exists (other sd), l0. cbn. auto.
      * left. cbn. split; [|auto]. unfold self in SE. cbn in SE. specialize (NZ _ _ L1). lia.
    + destruct RP as (ft & rest & -> & RS). destruct Hg as [<-|Hg].
      { right. exists (other sd), l0. unfold maker_fill. cbn. destruct sd; cbn; auto. }
      apply in_app_or in Hg. destruct Hg as [Hg|Hg].
      { right. exists (other sd), l0. destruct (n0 =? l_qty b); [|destruct Hg]. destruct Hg as [<-|[]]. cbn. auto. }
      cbn [tk_silent the_taker] in Hg. destruct (owner =? 0) eqn:EO; [destruct Hg|]. left. split; [lia|].
      destruct Hg as [<-|Hg].
      * unfold taker_fill. cbn. destruct sd; cbn; auto.
      * destruct RS as [->|[u ->]]; [destruct Hg|]. destruct Hg as [<-|[]]. cbn. auto.
  - assert (TK : forall u s0, v = taker_out (the_taker sd id owner slot t cid st) u s0 ->
      tk_silent (the_taker sd id owner slot t cid st) = false -> new_ev_of v).
    { intros u s0 -> EO. cbn in EO. left. cbn. split; [lia|auto]. }
    inversion r6; subst.
    + match goal with G : Ee = [] \/ _ |- _ => destruct G as [->|(EO & u & ->)] end; [destruct Hv|]. destruct Hv as [Hv|[]]. eapply TK; [symmetry; exact Hv|assumption].
    + match goal with G : Ee = [] \/ _ |- _ => destruct G as [->|(EO & u & s0 & ->)] end; [destruct Hv|]. destruct Hv as [Hv|[]]. eapply TK; [symmetry; exact Hv|assumption].
    + apply in_app_or in Hv. destruct Hv as [Hv|[<-|[]]].
      * match goal with G : _ = [] \/ _ |- _ => destruct G as [->|(EO & u & s0 & ->)] end; [destruct Hv|].
        destruct Hv as [Hv|[]]. eapply TK; [symmetry; exact Hv|assumption].
      * right. exists sd, w. split; [|cbn; auto]. match goal with G : worst_of _ w _ |- _ => exact (proj1 G) end.
Qed.

Hypothesis SO : both_sorted A.
Lemma order_step : step_end p sd A A'.
Proof. pose proof (or_all _ _ _ _ _ _ _ _ _ _ _ _ _ _ _ _ _ _ _ _ _ _ H) as X. destruct sd; apply X. Qed.
Lemma order_free k i : (k, i) <> (owner, slot) -> slot_free k i A -> slot_free k i A'.
Proof.
  intros N FR. destruct order_step as (A1 & EV & FI). pose proof (evo_free _ _ _ _ _ _ _ _ EV N FR) as F1.
  destruct (is_send_take p); [congruence|]. eapply fin_free; eassumption.
Qed.
Lemma order_busy k i id' sd' : (k, i) <> (owner, slot) -> slot_busy k i id' sd' A -> slot_busy k i id' sd' A'.
Proof.
  intros N FR. destruct order_step as (A1 & EV & FI). pose proof (evo_busy _ _ _ _ _ _ _ _ _ _ EV SO N FR) as F1.
  destruct (is_send_take p); [congruence|]. eapply fin_busy; try eassumption. eapply evo_sorted; eassumption.
Qed.
Lemma order_own : owner <> 0 -> slot_free owner slot A -> slot_busy owner slot id sd A'.
Proof.
  intros N FR. destruct order_step as (A1 & EV & FI).
  assert (is_send_take p = false) by (unfold is_send_take, p, params, system_id; cbn; lia). rewrite H0 in FI.
  eapply fin_own; try eassumption; [eapply evo_sorted; eassumption|]. eapply evo_flight; [eassumption|]. apply free_flight. assumption.
Qed.

(** Accounts that did not send the order. *)
Lemma order_frame seq k oo : k <> owner -> 0 <= seq -> (forall id', issued seq sd id' -> id' <> id) ->
  locked_coin cl k A' = locked_coin cl k A -> locked_pc pl k A' = locked_pc pl k A ->
  acct_ok cl pl seq k oo A -> acct_ok cl pl (seq + 1) k oo A'.
Proof.
  intros N SQ FRESH LC LP []. constructor; try assumption; try congruence.
  - intros i Hi. specialize (ao_slots i Hi). destruct (is_free oo i).
    + apply order_free; [congruence|assumption].
    + destruct ao_slots as [B [I1 I2]]. split; [apply order_busy; [congruence|assumption]|]. split; [eapply issued_weaken; [|eassumption]; lia|].
      intros l Hl KL. destruct (order_leaves _ _ Hl) as [(l0 & H0 & S1 & S2 & S3 & _)|(E1 & E2 & _)].
      * destruct (I2 l0 H0) as [X1 X2]; [congruence|]. split; congruence.
      * exfalso. apply (FRESH (order_at oo i)); [rewrite <- E1; assumption|congruence].
  - intros s l Hl OW. destruct (order_leaves _ _ Hl) as [(l0 & H0 & S1 & S2 & S3 & S4 & S5 & _)|(E1 & E2 & E3 & _)]; [|congruence].
    rewrite <- S5, <- S3. eapply ao_leaf_cid; [eassumption|congruence].
  - intros v Hv OW. destruct (order_events _ Hv) as [Hv'|[(_ & E1 & _)|(s & b & B1 & B2 & B3 & B4)]]; [auto|congruence|].
    rewrite B4, B3. eapply ao_leaf_cid; [eassumption|congruence].
Qed.

(** The account that sent it. *)
Lemma order_account seq oo oo' : owner <> 0 -> 0 <= seq -> 0 <= slot < 128 ->
  (forall id', issued seq sd id' -> id' <> id) -> issued (seq + 1) sd id ->
  acct_ok cl pl seq owner oo A -> oo_wf oo' ->
  is_free oo slot = true -> is_free oo' slot = false -> order_at oo' slot = id -> side_at oo' slot = sd -> cid_at oo' slot = cid ->
  (forall j, 0 <= j < 128 -> j <> slot -> is_free oo' j = is_free oo j /\ order_at oo' j = order_at oo j /\
     side_at oo' j = side_at oo j /\ cid_at oo' j = cid_at oo j) ->
  (forall l, In l (book_of A sd) -> issued seq sd (l_key l)) ->
  (forall s l, In l (book_of A s) -> 0 <= l_slot l < 128) -> (forall v, In v (a_evs A) -> 0 <= ev_slot v < 128) ->
  0 <= oo_coin_free oo' <= oo_coin_total oo' -> oo_coin_total oo' < B64 ->
  0 <= oo_pc_free oo' <= oo_pc_total oo' -> oo_pc_total oo' < B64 -> u64 (oo_rebates oo') ->
  oo_coin_total oo' - oo_coin_free oo' = locked_coin cl owner A' ->
  oo_pc_total oo' - oo_pc_free oo' = locked_pc pl owner A' ->
  acct_ok cl pl (seq + 1) owner oo' A'.
Proof.
  intros N SQ SL FRESH ISS AO W F0 F1 O1 S1 C1 REST KEYS LSL ESL B1 B2 B3 B4 B5 B6 B7. destruct AO.
  assert (FS : slot_free owner slot A) by (specialize (ao_slots slot SL); rewrite F0 in ao_slots; assumption).
  assert (CID : forall s b, In b (book_of A s) -> l_owner b = owner -> l_cid b = cid_at oo' (l_slot b)).
  { intros s b Hb OW. rewrite (ao_leaf_cid _ _ Hb OW). symmetry. apply REST; [eapply LSL; eassumption|].
    intros ES. apply (proj1 FS s b Hb). split; assumption. }
  constructor; try assumption.
  - intros i Hi. destruct (Z.eq_dec i slot) as [->|NI].
    + rewrite F1, O1, S1. split; [apply order_own; assumption|]. unfold slot_named. rewrite O1, S1. split; [assumption|].
      intros l Hl KL. destruct (order_leaves _ _ Hl) as [(l0 & H0 & K1 & K2 & K3 & _)|(_ & _ & E3 & E4 & _)]; [|split; assumption].
      exfalso. apply (FRESH (l_key l0)); [apply KEYS; assumption|congruence].
    + destruct (REST i Hi NI) as (R1 & R2 & R3 & R4). unfold slot_named. rewrite R1, R2, R3. specialize (ao_slots i Hi). destruct (is_free oo i).
      * apply order_free; [congruence|assumption].
      * destruct ao_slots as [B [I1 I2]]. split; [apply order_busy; [congruence|assumption]|]. split; [eapply issued_weaken; [|eassumption]; lia|].
        intros l Hl KL. destruct (order_leaves _ _ Hl) as [(l0 & H0 & K1 & K2 & K3 & _)|(E1 & E2 & _)].
        -- destruct (I2 l0 H0) as [X1 X2]; [congruence|]. split; congruence.
        -- exfalso. apply (FRESH (order_at oo i)); [rewrite <- E1; assumption|congruence].
  - intros s l Hl OW. destruct (order_leaves _ _ Hl) as [(l0 & H0 & K1 & K2 & K3 & K4 & K5 & _)|(E1 & E2 & E3 & E4 & E5 & _)]; [|congruence].
    rewrite <- K5, <- K3. eapply CID; [eassumption|congruence].
  - intros v Hv OW. destruct (order_events _ Hv) as [Hv'|[(_ & E1 & E2 & E3)|(s & b & K1 & K2 & K3 & K4)]].
    + rewrite (ao_ev_cid _ Hv' OW). symmetry. apply REST; [auto|]. intros ES.
      pose proof (proj2 FS) as FE. assert (In v (slot_events owner slot A)) as IV by (apply slot_event_In; auto).
      rewrite FE in IV. destruct IV.
    + congruence.
    + rewrite K4, K3. eapply CID; [eassumption|congruence].
Qed.
End Effect.
