(** Consuming events: the event at the head of the queue can always be applied to its owner's account,
    and applying it keeps the market invariant. *)
From Coq Require Import Permutation.
From Verif Require Import Base BaseProofs Fees Critbit CritbitProofs CritbitSlab CritbitOps CritbitSpec CritbitRefine
  Queue QueueSpec QueueProofs Codec ListSum Market Matching MatchSteps MatchRefine MatchAsk MatchBid MatchRun Ledger
  LedgerSteps MatchSpec LedgerRun Slots Core CoreInv CoreNew CoreCancel.

Definition pop (A : astate) : astate := mkA (a_bids A) (a_asks A) (tl (a_evs A)).
(** What an event adds to its owner's free balances. *)
Definition ev_free_coin (v : event_view) : Z :=
  match v with
  | EvFill Bid true _ received _ _ _ _ _ _ => received
  | EvOut Ask true unlocked _ _ _ _ _ => unlocked
  | _ => 0 end.
Definition ev_free_pc (v : event_view) : Z :=
  match v with
  | EvFill Ask true _ received _ _ _ _ _ _ => received
  | EvOut Bid true unlocked _ _ _ _ _ => unlocked
  | _ => 0 end.
Lemma ev_free_coin_eq v : ev_free_coin v = ev_coin v + ev_lock_coin v.
Proof. destruct v as [[] [] ? ? ? ? ? ? ? ?|[] [] ? ? ? ? ? ?]; cbn; lia. Qed.
Lemma ev_free_pc_eq v : ev_ok v -> ev_free_pc v = ev_pc v + ev_lock_pc v.
Proof. destruct v as [[] [] ? ? ? ? ? ? ? ?|[] [] ? ? ? ? ? ?]; cbn; lia. Qed.

(** ** Slots *)
Lemma pop_book A s : book_of (pop A) s = book_of A s.
Proof. destruct s; reflexivity. Qed.
Lemma pop_events A v r k i : a_evs A = v :: r -> slot_events k i A = if evb k i v then v :: slot_events k i (pop A) else slot_events k i (pop A).
Proof. intros E. unfold slot_events, pop. cbn [a_evs]. rewrite E. reflexivity. Qed.
Lemma pop_free A v r k i : a_evs A = v :: r -> slot_free k i A -> evb k i v = false /\ slot_free k i (pop A).
Proof.
  intros E [F1 F2]. rewrite (pop_events _ _ _ _ _ E) in F2. destruct (evb k i v); [discriminate|]. split; [reflexivity|].
  split; [|assumption]. intros s l. rewrite pop_book. apply F1.
Qed.
Lemma pop_busy_other A v r k i id sd : a_evs A = v :: r -> evb k i v = false -> slot_busy k i id sd A -> slot_busy k i id sd (pop A).
Proof.
  intros E EB B. pose proof (pop_events _ _ _ k i E) as PE. rewrite EB in PE. unfold slot_busy in *. rewrite PE in B. rewrite !pop_book. exact B.
Qed.
Lemma pop_busy A v r k i id sd : a_evs A = v :: r -> evb k i v = true -> slot_busy k i id sd A ->
  ev_id v = id /\ ev_side v = sd /\
  if ev_final v then slot_free k i (pop A) else slot_busy k i id sd (pop A).
Proof.
  intros E EB (B1 & B2 & B3 & B4). pose proof (pop_events _ _ _ k i E) as PE. rewrite EB in PE. rewrite PE in B1, B4.
  destruct (B1 v (or_introl eq_refl)) as [X1 X2]. split; [assumption|]. split; [assumption|].
  assert (B1' : forall v', In v' (slot_events k i (pop A)) -> ev_id v' = id /\ ev_side v' = sd) by (intros; apply B1; right; assumption).
  destruct B4 as [[BL BF]|[BL (E0 & f & EF & FF & FN)]].
  - rewrite (BF v (or_introl eq_refl)). unfold slot_busy. rewrite !pop_book. split; [assumption|]. split; [assumption|]. split; [assumption|].
    left. split; [assumption|]. intros; apply BF; right; assumption.
  - destruct E0 as [|v0 E0]; cbn [app] in EF; injection EF as E1 E2.
    + subst f. rewrite FF. split; [|assumption]. intros s l. rewrite pop_book. destruct (side_cases sd s) as [->| ->]; auto.
    + subst v0. rewrite (FN v (or_introl eq_refl)). unfold slot_busy. rewrite !pop_book. split; [assumption|]. split; [assumption|]. split; [assumption|].
      right. split; [assumption|]. exists E0, f. split; [assumption|]. split; [assumption|]. intros; apply FN; right; assumption.
Qed.

(** ** Amounts *)
Record applied (oo oo' : open_orders) (v : event_view) : Prop := mkApplied {
  ap_coin_free : oo_coin_free oo' = oo_coin_free oo + ev_free_coin v;
  ap_coin_total : oo_coin_total oo' = oo_coin_total oo + ev_coin v;
  ap_pc_free : oo_pc_free oo' = oo_pc_free oo + ev_free_pc v;
  ap_pc_total : oo_pc_total oo' = oo_pc_total oo + ev_pc v;
  ap_reb : oo_rebates oo' = oo_rebates oo + ev_rebate v;
  ap_id : same_id oo oo';
  ap_wf : oo_wf oo';
  ap_slots : forall i, 0 <= i < 128 ->
    if ev_final v && (i =? ev_slot v) then is_free oo' i = true
    else is_free oo' i = is_free oo i /\ order_at oo' i = order_at oo i /\ side_at oo' i = side_at oo i /\ cid_at oo' i = cid_at oo i }.

(** Sums over pending maker payments, see DESIGN.md on wrap-around. *)
Definition paid_coin (A : astate) : Z := zsum ev_paid_coin (a_evs A).
Definition paid_pc (A : astate) : Z := zsum ev_paid_pc (a_evs A).
Definition fits (m : market) (A : astate) : Prop :=
  m_coin_deposits m + paid_coin A < B64 /\ m_pc_deposits m + paid_pc A < B64.

Lemma zsum_one {X} (f : X -> Z) l x : In x l -> (forall y, In y l -> 0 <= f y) -> f x <= zsum f l.
Proof. intros H1 H2. apply (sum_ge_one f l x H2 H1). Qed.

Section Consume.
Variables (m : market) (seq k : Z) (oo : open_orders) (L : list acct) (A : astate) (v : event_view) (r : list event_view).
Hypothesis (AI : ainv m seq ((k, oo) :: L) A) (EV : a_evs A = v :: r) (OW : ev_owner v = k).
Let cl := m_coin_lot m. Let pl := m_pc_lot m.
Let AO : acct_ok cl pl seq k oo A := ai_acct _ _ _ _ AI k oo (or_introl eq_refl).
Lemma head_in : In v (a_evs A). Proof. rewrite EV. left. reflexivity. Qed.
Lemma head_ok : ev_ok v.
Proof. exact (evs_each _ _ _ _ AI v head_in). Qed.
Lemma head_slot : 0 <= ev_slot v < 128.
Proof. exact (proj2 (ai_evown _ _ _ _ AI v head_in)). Qed.
Lemma head_evb : evb k (ev_slot v) v = true.
Proof. apply evb_true. auto. Qed.
Lemma head_busy : is_free oo (ev_slot v) = false /\ slot_busy k (ev_slot v) (order_at oo (ev_slot v)) (side_at oo (ev_slot v)) A /\
  ev_id v = order_at oo (ev_slot v) /\ ev_side v = side_at oo (ev_slot v).
Proof.
  pose proof (ao_slots _ _ _ _ _ _ AO _ head_slot) as S. destruct (is_free oo (ev_slot v)) eqn:F.
  - destruct (pop_free _ _ _ _ _ EV S) as [X _]. rewrite head_evb in X. discriminate.
  - destruct S as [B _]. destruct (pop_busy _ _ _ _ _ _ _ EV head_evb B) as (X1 & X2 & _). auto.
Qed.
Lemma lock_coin_pop k' : locked_coin cl k' A = locked_coin cl k' (pop A) + (if ev_owner v =? k' then ev_lock_coin v else 0).
Proof. unfold locked_coin, pop. cbn [a_asks a_evs]. rewrite EV. cbn [zsum tl]. unfold mine at 2. destruct (ev_owner v =? k'); lia. Qed.
Lemma lock_pc_pop k' : locked_pc pl k' A = locked_pc pl k' (pop A) + (if ev_owner v =? k' then ev_lock_pc v else 0).
Proof. unfold locked_pc, pop. cbn [a_bids a_evs]. rewrite EV. cbn [zsum tl]. unfold mine at 2. destruct (ev_owner v =? k'); lia. Qed.
Lemma locked_nonneg k' : 0 <= locked_coin cl k' (pop A) /\ 0 <= locked_pc pl k' (pop A).
Proof.
  assert (EVR : forall x, In x (a_evs (pop A)) -> ev_ok x).
  { intros x Hx. apply (evs_each _ _ _ _ AI). rewrite EV. right. unfold pop in Hx. cbn [a_evs] in Hx. rewrite EV in Hx. exact Hx. }
  assert (F := ai_fit _ _ _ _ AI). pose proof (ai_cl _ _ _ _ AI). pose proof (ai_pl _ _ _ _ AI).
  unfold locked_coin, locked_pc. split.
  - assert (0 <= zsum (mine l_owner k' (coin_of cl)) (a_asks (pop A))).
    { apply zsum_nonneg. intros l Hl. unfold mine. destruct (l_owner l =? k'); [|lia]. exact (proj1 (leaf_val_bounds _ _ _ _ AI Ask l Hl)). }
    assert (0 <= zsum (mine ev_owner k' ev_lock_coin) (a_evs (pop A))).
    { apply zsum_nonneg. intros x Hx. unfold mine. destruct (ev_owner x =? k'); [|lia]. apply (ev_lock_nonneg x (EVR x Hx)). }
    lia.
  - assert (0 <= zsum (mine l_owner k' (pc_of pl)) (a_bids (pop A))).
    { apply zsum_nonneg. intros l Hl. unfold mine. destruct (l_owner l =? k'); [|lia]. exact (proj1 (leaf_val_bounds _ _ _ _ AI Bid l Hl)). }
    assert (0 <= zsum (mine ev_owner k' ev_lock_pc) (a_evs (pop A))).
    { apply zsum_nonneg. intros x Hx. unfold mine. destruct (ev_owner x =? k'); [|lia]. apply (ev_lock_nonneg x (EVR x Hx)). }
    lia.
Qed.
(** No balance overflows when the pending payments fit. *)
Lemma others_nonneg : 0 <= sum_coin L /\ 0 <= sum_pc L /\ 0 <= sum_reb L.
Proof.
  assert (H : forall x, In x L -> 0 <= oo_coin_total (snd x) /\ 0 <= oo_pc_total (snd x) /\ 0 <= oo_rebates (snd x)).
  { intros [k' o'] HI. pose proof (ai_acct _ _ _ _ AI k' o' (or_intror HI)) as A0. pose proof (ao_coin _ _ _ _ _ _ A0). pose proof (ao_pc _ _ _ _ _ _ A0).
    pose proof (ao_reb _ _ _ _ _ _ A0). unfold u64 in *. cbn [snd]. lia. }
  unfold sum_coin, sum_pc, sum_reb. split; [|split]; apply zsum_nonneg; intros x Hx; apply (H x Hx).
Qed.
Lemma received_fits : fits m A -> oo_coin_total oo + (ev_coin v + ev_paid_coin v) < B64 /\ oo_pc_total oo + (ev_pc v + ev_paid_pc v) < B64.
Proof.
  intros [F1 F2]. destruct others_nonneg as (O1 & O2 & _). pose proof (ai_coin _ _ _ _ AI) as SC. pose proof (ai_pc _ _ _ _ AI) as SP.
  unfold sum_coin, sum_pc in SC, SP. cbn [zsum snd] in SC, SP. fold (sum_coin L) in SC. fold (sum_pc L) in SP.
  assert (NN : forall x, In x (a_evs A) -> 0 <= ev_coin x + ev_paid_coin x /\ 0 <= ev_pc x + ev_paid_pc x).
  { intros x Hx. pose proof (evs_each _ _ _ _ AI x Hx) as X. destruct x as [[] [] ? ? ? ? ? ? ? ?|[] [] ? ? ? ? ? ?]; cbn in *; lia. }
  assert (G1 : ev_coin v + ev_paid_coin v <= zsum (fun x => ev_coin x + ev_paid_coin x) (a_evs A)) by (apply (zsum_one (fun x => ev_coin x + ev_paid_coin x)); [exact head_in|intros; apply NN; assumption]).
  assert (G2 : ev_pc v + ev_paid_pc v <= zsum (fun x => ev_pc x + ev_paid_pc x) (a_evs A)) by (apply (zsum_one (fun x => ev_pc x + ev_paid_pc x)); [exact head_in|intros; apply NN; assumption]).
  rewrite zsum_plus in G1, G2. unfold paid_coin, paid_pc in *. lia.
Qed.
Lemma rebate_fits : oo_rebates oo + ev_rebate v < B64 /\ 0 <= ev_rebate v.
Proof.
  destruct others_nonneg as (_ & _ & O3). pose proof (ai_reb _ _ _ _ AI) as SR. unfold sum_reb in SR. cbn [zsum snd] in SR. fold (sum_reb L) in SR.
  assert (NN : forall x, In x (a_evs A) -> 0 <= ev_rebate x).
  { intros x Hx. pose proof (evs_each _ _ _ _ AI x Hx) as X. destruct x as [[] [] ? ? ? ? ? ? ? ?|[] [] ? ? ? ? ? ?]; cbn in *; try lia; apply Z.div_pos; lia. }
  pose proof (zsum_one ev_rebate (a_evs A) v head_in NN). pose proof (NN v head_in). destruct (ai_mkt _ _ _ _ AI) as (_ & _ & U). unfold u64 in U. lia.
Qed.

Theorem consume_applies : fits m A -> exists oo', consume_event oo v = Ok oo' /\ applied oo oo' v.
Proof.
  intros FT. destruct (received_fits FT) as [R1 R2]. destruct rebate_fits as [R3 R4]. pose proof head_ok as HO. pose proof head_slot as HS.
  destruct head_busy as (F1 & _ & F2 & F3). pose proof (ao_wf _ _ _ _ _ _ AO) as W.
  pose proof (ao_coin _ _ _ _ _ _ AO). pose proof (ao_pc _ _ _ _ _ _ AO). pose proof (ao_coin_max _ _ _ _ _ _ AO). pose proof (ao_pc_max _ _ _ _ _ _ AO).
  pose proof (ao_lcoin _ _ _ _ _ _ AO) as LC. pose proof (ao_lpc _ _ _ _ _ _ AO) as LP. rewrite lock_coin_pop, OW, Z.eqb_refl in LC. rewrite lock_pc_pop, OW, Z.eqb_refl in LP.
  destruct (locked_nonneg k) as [N1 N2]. pose proof (ao_reb _ _ _ _ _ _ AO) as RB. unfold u64 in RB.
  destruct (znth_lt (oo_orders oo) (ev_slot v)) as [x Ex]; [rewrite (w_orders _ W); lia|].
  assert (X : order_at oo (ev_slot v) = x) by (unfold order_at; rewrite Ex; reflexivity). rewrite X in F2.
  assert (KEEP : forall oo', keeps_slots oo oo' \/ (exists rb, keeps_slots oo (set_oo_rebates oo' rb)) -> ev_final v = false -> same_id oo oo' /\ oo_wf oo' /\ forall i, 0 <= i < 128 ->
    if ev_final v && (i =? ev_slot v) then is_free oo' i = true
    else is_free oo' i = is_free oo i /\ order_at oo' i = order_at oo i /\ side_at oo' i = side_at oo i /\ cid_at oo' i = cid_at oo i).
  { intros oo' KS FV. assert (K : oo_flags oo' = oo_flags oo /\ oo_market oo' = oo_market oo /\ oo_owner oo' = oo_owner oo /\ oo_free_bits oo' = oo_free_bits oo /\
       oo_bid_bits oo' = oo_bid_bits oo /\ oo_orders oo' = oo_orders oo /\ oo_cids oo' = oo_cids oo).
    { destruct KS as [KS|[rb KS]]; unfold keeps_slots in KS; cbn in KS; tauto. }
    destruct K as (K1 & K2 & K3 & K4 & K5 & K6 & K7). split; [repeat split; assumption|]. split; [destruct W; constructor; congruence|].
    intros i Hi. rewrite FV. cbn [andb]. unfold is_free, order_at, side_at, cid_at. rewrite K4, K5, K6, K7. auto. }
  unfold consume_event. destruct v as [sd mk paid received fee id w slot t cid|sd release unlocked still id w slot cid] eqn:EVV; cbn [ev_slot ev_id ev_side ev_owner] in *.
  - replace (slot <? 128) with true by lia. cbn [check rbind]. rewrite slot_side_bit, F1 by lia. rewrite F3.
    replace (side_eqb (side_at oo slot) (side_at oo slot)) with true by (destruct (side_at oo slot); reflexivity). cbn [check rbind].
    rewrite Ex. cbn [unwrap rbind]. replace (x =? id) with true by lia. cbn [check rbind]. rewrite <- F3.
    destruct mk.
    + destruct HO as (O1 & O2 & O3 & O4). specialize (O4 eq_refl). subst fee. destruct sd; cbn [ev_coin ev_pc ev_lock_coin ev_lock_pc ev_paid_coin ev_paid_pc ev_rebate ev_free_coin ev_free_pc] in *.
      * eexists. split; [reflexivity|]. destruct (KEEP (set_balances oo (wadd (oo_coin_free oo) received) (wadd (oo_coin_total oo) received) (wadd (oo_pc_free oo) 0) (wsub (oo_pc_total oo) paid))) as (G1 & G2 & G3);
          [left; repeat split|reflexivity|]. constructor; try assumption; cbn [set_balances oo_coin_free oo_coin_total oo_pc_free oo_pc_total oo_rebates ev_coin ev_pc ev_rebate ev_free_coin ev_free_pc];
          rewrite ?wadd_small, ?wsub_small by lia; lia.
      * eexists. split; [reflexivity|]. destruct (KEEP (set_balances oo (oo_coin_free oo) (wsub (oo_coin_total oo) paid) (wadd (oo_pc_free oo) received) (wadd (oo_pc_total oo) received))) as (G1 & G2 & G3);
          [left; repeat split|reflexivity|]. constructor; try assumption; cbn [set_balances oo_coin_free oo_coin_total oo_pc_free oo_pc_total oo_rebates ev_coin ev_pc ev_rebate ev_free_coin ev_free_pc];
          rewrite ?wadd_small, ?wsub_small by lia; lia.
    + eexists. split; [reflexivity|]. destruct (KEEP (set_oo_rebates oo (wadd (oo_rebates oo) (referrer_rebate fee)))) as (G1 & G2 & G3);
          [right; exists (oo_rebates oo); repeat split|reflexivity|]. unfold referrer_rebate in *.
      constructor; try assumption; cbn [set_oo_rebates oo_coin_free oo_coin_total oo_pc_free oo_pc_total oo_rebates];
        destruct sd; cbn [ev_coin ev_pc ev_rebate ev_free_coin ev_free_pc] in *; rewrite ?wadd_small by lia; lia.
  - replace (slot <? 128) with true by lia. cbn [check rbind]. rewrite slot_side_bit, F1 by lia. rewrite F3.
    replace (side_eqb (side_at oo slot) (side_at oo slot)) with true by (destruct (side_at oo slot); reflexivity). cbn [check rbind].
    rewrite Ex. cbn [unwrap rbind]. replace (x =? id) with true by lia. cbn [check rbind]. rewrite <- F3.
    set (oo1 := match sd with
        | Bid => if release then set_pc_free oo (wadd (oo_pc_free oo) unlocked) else oo
        | Ask => if release then set_coin_free oo (wadd (oo_coin_free oo) unlocked) else oo end).
    assert (B1 : oo_coin_free oo1 = oo_coin_free oo + ev_free_coin v /\ oo_coin_total oo1 = oo_coin_total oo /\ oo_pc_free oo1 = oo_pc_free oo + ev_free_pc v /\
       oo_pc_total oo1 = oo_pc_total oo /\ keeps_slots oo oo1).
    { rewrite EVV. unfold oo1. destruct HO as [HO1 HO2]. destruct sd, release; cbn [ev_free_coin ev_free_pc ev_lock_coin ev_lock_pc set_pc_free set_coin_free set_balances oo_coin_free oo_coin_total oo_pc_free oo_pc_total] in *;
      rewrite ?wadd_small by lia; (split; [lia|split; [lia|split; [lia|split; [lia|repeat split]]]]). }
    destruct B1 as (B1 & B2 & B3 & B4 & B5). rewrite EVV in B1, B3.
    assert (CK : (match sd with Bid => oo_pc_free oo1 <=? oo_pc_total oo1 | Ask => oo_coin_free oo1 <=? oo_coin_total oo1 end) = true).
    { destruct HO as [HO1 HO2]. destruct sd, release; cbn [ev_free_coin ev_free_pc ev_lock_coin ev_lock_pc] in *; lia. }
    rewrite CK. cbn [check rbind].
    assert (EC : ev_coin v = 0 /\ ev_pc v = 0 /\ ev_rebate v = 0) by (rewrite EVV; destruct sd, release; cbn; auto). destruct EC as (EC1 & EC2 & EC3).
    rewrite EVV in EC1, EC2, EC3.
    assert (W1 : oo_wf oo1). { destruct B5 as (_ & _ & _ & K4 & K5 & K6 & K7 & _). destruct W; constructor; congruence. }
    assert (SL1 : forall i, is_free oo1 i = is_free oo i /\ order_at oo1 i = order_at oo i /\ side_at oo1 i = side_at oo i /\ cid_at oo1 i = cid_at oo i).
    { destruct B5 as (_ & _ & _ & K4 & K5 & K6 & K7 & _). intros i. unfold is_free, order_at, side_at, cid_at. rewrite K4, K5, K6, K7. auto. }
    assert (RB1 : oo_rebates oo1 = oo_rebates oo) by apply B5.
    destruct (Z.eqb_spec still 0) as [ST|ST].
    + destruct (remove_order_ok oo1 slot W1 HS) as (oo2 & E2 & W2 & SB & G1 & G2 & G3); [rewrite (proj1 (SL1 slot)); assumption|].
      exists oo2. split; [exact E2|]. destruct SB as (S1 & S2 & S3 & S4 & S5 & S6 & S7 & S8). destruct B5 as (K1 & K2 & K3 & _).
      constructor; try assumption; try (unfold same_id; repeat split; congruence); try lia.
      intros i Hi. cbn [ev_final ev_slot]. rewrite ST. cbn [Z.eqb andb]. destruct (Z.eqb_spec i slot) as [->|NI]; [assumption|].
      destruct (G3 i Hi NI) as (Y1 & Y2 & Y3 & Y4). destruct (SL1 i) as (Z1 & Z2 & Z3 & Z4). repeat split; congruence.
    + exists oo1. split; [reflexivity|]. destruct (KEEP oo1) as (G1 & G2 & G3); [left; assumption|cbn; lia|].
      constructor; try assumption; lia.
Qed.

Theorem consume_inv oo' : fits m A -> consume_event oo v = Ok oo' -> ainv m seq ((k, oo') :: L) (pop A).
Proof.
  intros FT HC. destruct (consume_applies FT) as (oo2 & E2 & AP). rewrite HC in E2. injection E2 as <-.
  pose proof head_slot as HS. destruct head_busy as (F1 & HB & F2 & F3).
  destruct (received_fits FT) as [R1 R2]. destruct rebate_fits as [R3 R4]. pose proof head_ok as HO.
  pose proof (ao_coin _ _ _ _ _ _ AO). pose proof (ao_pc _ _ _ _ _ _ AO). pose proof (ao_coin_max _ _ _ _ _ _ AO). pose proof (ao_pc_max _ _ _ _ _ _ AO).
  pose proof (ao_lcoin _ _ _ _ _ _ AO) as LC. pose proof (ao_lpc _ _ _ _ _ _ AO) as LP. rewrite lock_coin_pop, OW, Z.eqb_refl in LC. rewrite lock_pc_pop, OW, Z.eqb_refl in LP.
  destruct (locked_nonneg k) as [N1 N2]. pose proof (ao_reb _ _ _ _ _ _ AO) as RB. unfold u64 in RB.
  pose proof (ev_free_coin_eq v) as V1. pose proof (ev_free_pc_eq v HO) as V2. pose proof (ev_lock_nonneg v HO) as V3.
  assert (V4 : 0 <= ev_paid_coin v /\ 0 <= ev_paid_pc v /\ 0 <= ev_free_coin v /\ 0 <= ev_free_pc v).
  { clear - HO. destruct v as [[] [] ? ? ? ? ? ? ? ?|[] [] ? ? ? ? ? ?]; cbn in *; lia. }
  assert (TLE : forall x, In x (a_evs (pop A)) -> In x (a_evs A)).
  { intros x Hx. unfold pop in Hx. cbn [a_evs] in Hx. rewrite EV in Hx |- *. right. exact Hx. }
  destruct AP as [a1 a2 a3 a4 a5 a6 a7 a8].
  assert (EVH : forall f, zsum f (a_evs A) = f v + zsum f (a_evs (pop A))) by (intros f; unfold pop; cbn [a_evs]; rewrite EV; reflexivity).
  pose proof AI as [i1 i2 i3 i4 i5 i6 i7 i8 i9 i10 i11 i12 i13 i14 i15 i16 i17 i18].
  apply mkAinv; try assumption.
  - destruct i6 as [FB FA]. constructor; [exact FB|exact FA].
  - unfold evs_ok. apply Forall_forall. intros x Hx. apply (evs_each _ _ _ _ AI). auto.
  - intros k' o' [[= <- <-]|HI].
    + constructor; try assumption; try lia; fold cl; fold pl; try lia.
      * unfold u64. lia.
      * intros i Hi. pose proof (a8 i Hi) as S. destruct (ev_final v && (i =? ev_slot v)) eqn:EF.
        -- rewrite S. apply andb_true_iff in EF. destruct EF as [EF EI]. apply Z.eqb_eq in EI. subst i.
           destruct (pop_busy _ _ _ _ _ _ _ EV head_evb HB) as (_ & _ & X). rewrite EF in X. exact X.
        -- destruct S as (S1 & S2 & S3 & S4). unfold slot_named. rewrite S1, S2, S3. pose proof (ao_slots _ _ _ _ _ _ AO i Hi) as SL.
           destruct (is_free oo i) eqn:FI; [apply (pop_free _ _ _ _ _ EV SL)|]. destruct SL as [B [M1 M2]]. split; [|split; [exact M1|intros l; rewrite pop_book; apply M2]].
           destruct (evb k i v) eqn:EB; [|eapply pop_busy_other; eassumption].
           destruct (pop_busy _ _ _ _ _ _ _ EV EB B) as (_ & _ & X). apply evb_true in EB. destruct EB as [_ EB]. subst i. rewrite Z.eqb_refl, andb_true_r in EF. rewrite EF in X. exact X.
      * intros s l Hl OWL. rewrite pop_book in Hl. rewrite (ao_leaf_cid _ _ _ _ _ _ AO s l Hl OWL).
        pose proof (proj2 (ai_own _ _ _ _ AI s l Hl)) as SLL. pose proof (a8 _ SLL) as S.
        destruct (ev_final v && (l_slot l =? ev_slot v)) eqn:EF; [|symmetry; apply S]. exfalso.
        apply andb_true_iff in EF. destruct EF as [EF EI]. apply Z.eqb_eq in EI.
        destruct (pop_busy _ _ _ _ _ _ _ EV head_evb HB) as (_ & _ & X). rewrite EF in X. apply (proj1 X s l); [rewrite pop_book; assumption|split; [assumption|congruence]].
      * intros x Hx OWX. rewrite (ao_ev_cid _ _ _ _ _ _ AO x (TLE x Hx) OWX).
        pose proof (proj2 (ai_evown _ _ _ _ AI x (TLE x Hx))) as SLL. pose proof (a8 _ SLL) as S.
        destruct (ev_final v && (ev_slot x =? ev_slot v)) eqn:EF; [|symmetry; apply S]. exfalso.
        apply andb_true_iff in EF. destruct EF as [EF EI]. apply Z.eqb_eq in EI.
        destruct (pop_busy _ _ _ _ _ _ _ EV head_evb HB) as (_ & _ & X). rewrite EF in X. destruct X as [_ X].
        assert (IN : In x (slot_events k (ev_slot v) (pop A))) by (apply slot_event_In; auto). rewrite X in IN. destruct IN.
    + assert (N : k' <> k) by (intros ->; pose proof (ai_nodup _ _ _ _ AI) as ND; cbn [map fst] in ND; inversion ND as [|? ? X]; apply X;
        change k with (fst (k, o')); apply in_map; assumption).
      pose proof (ai_acct _ _ _ _ AI k' o' (or_intror HI)) as AO'. fold cl pl in AO'.
      pose proof (lock_coin_pop k') as Q1. pose proof (lock_pc_pop k') as Q2. replace (ev_owner v =? k') with false in Q1, Q2 by lia. rewrite Z.add_0_r in Q1, Q2.
      destruct AO'. constructor; try assumption; fold cl; fold pl; try congruence.
      * intros i Hi. specialize (ao_slots i Hi). destruct (is_free o' i); [apply (pop_free _ _ _ _ _ EV ao_slots)|].
        destruct ao_slots as [B [M1 M2]]. split; [|split; [exact M1|intros l; rewrite pop_book; apply M2]].
        eapply pop_busy_other; [exact EV| |exact B]. destruct (evb k' i v) eqn:EB; [|reflexivity]. apply evb_true in EB. destruct EB. congruence.
      * intros x Hx. apply ao_ev_cid. auto.
  - intros x Hx. apply (ai_evown _ _ _ _ AI x (TLE x Hx)).
  - pose proof (ai_coin _ _ _ _ AI) as X. rewrite EVH in X. unfold sum_coin in *. cbn [zsum snd] in *. lia.
  - pose proof (ai_pc _ _ _ _ AI) as X. rewrite EVH in X. unfold sum_pc in *. cbn [zsum snd] in *. lia.
  - pose proof (ai_reb _ _ _ _ AI) as X. rewrite EVH in X. unfold sum_reb in *. cbn [zsum snd] in *. lia.
Qed.
End Consume.
