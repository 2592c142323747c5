(** Whatever the state, the instruction bodies change only counters of the market record and never the
    identity of an open-orders account. *)
From Verif Require Import Base BaseProofs Fees Queue Codec Critbit Market Matching Core CoreNew.

Definition sm (o o' : obs) : Prop := same_market (ob_mkt o) (ob_mkt o').
Lemma sm_eq o o' : ob_mkt o' = ob_mkt o -> sm o o'.
Proof. unfold sm. intros ->. apply same_market_refl. Qed.
Lemma sm_refl o : sm o o. Proof. apply sm_eq. reflexivity. Qed.
Lemma sm_trans a b c : sm a b -> sm b c -> sm a c. Proof. apply same_market_trans. Qed.
Lemma set_orders_mkt o s x : ob_mkt (set_orders o s x) = ob_mkt o. Proof. destruct s; reflexivity. Qed.
Ltac open H := repeat (apply rbind_ok in H; let x := fresh "r" in let E := fresh "E" in destruct H as (x & E & H); try (destruct x as [[? ?] ?]); try (destruct x as [? ?])).
Lemma emit_mkt o v o' : emit o v = Ok o' -> ob_mkt o' = ob_mkt o.
Proof. unfold emit. intros H. apply rbind_ok in H. destruct H as ([q|] & _ & H); [|discriminate]. injection H as <-. reflexivity. Qed.
Lemma rm_mkt o s k o' : remove_order_by_key o s k = Ok o' -> ob_mkt o' = ob_mkt o.
Proof. unfold remove_order_by_key. intros H. apply rbind_ok in H. destruct H as ([sl l] & _ & H). apply rbind_ok in H. destruct H as (? & _ & H). injection H as <-. apply set_orders_mkt. Qed.
Lemma write_mkt o s h l q : ob_mkt (write_qty o s h l q) = ob_mkt o.
Proof. apply set_orders_mkt. Qed.
Lemma post_mkt o sd l o' : post_order o sd l = Ok o' -> ob_mkt o' = ob_mkt o.
Proof.
  unfold post_order. intros H. apply rbind_ok in H. destruct H as ([s1 out] & _ & H). destruct out; [injection H as <-; apply set_orders_mkt|].
  apply rbind_ok in H. destruct H as ([s2 ev] & _ & H). apply rbind_ok in H. destruct H as (? & _ & H). apply rbind_ok in H. destruct H as (? & _ & H).
  apply rbind_ok in H. destruct H as (o1 & HE & H). apply rbind_ok in H. destruct H as ([s3 out2] & _ & H). destruct out2; [|discriminate].
  injection H as <-. rewrite set_orders_mkt, (emit_mkt _ _ _ HE). apply set_orders_mkt.
Qed.
Lemma accrue_same m a b : same_market m (accrue m a b). Proof. reflexivity. Qed.
(** Facts about the intermediate states are collected, then chained. *)
Ltac facts := repeat match goal with
  | H : emit _ _ = Ok _ |- _ => apply emit_mkt in H
  | H : remove_order_by_key _ _ _ = Ok _ |- _ => apply rm_mkt in H
  | H : post_order _ _ _ = Ok _ |- _ => apply post_mkt in H
  end.
Ltac split_all := repeat match goal with
  | H : rbind _ _ = Ok _ |- _ => apply rbind_ok in H; let x := fresh "r" in let E := fresh "E" in destruct H as (x & E & H)
  | H : Ok _ = Ok _ |- _ => injection H; clear H; intros; subst
  | H : Err _ = Ok _ |- _ => discriminate H
  | H : Panic = Ok _ |- _ => discriminate H
  | H : (let '(_, _) := ?x in _) = Ok _ |- _ => destruct x
  | H : (if ?b then _ else _) = Ok _ |- _ => destruct b
  | H : match ?x with Some _ => _ | None => _ end = Ok _ |- _ => destruct x
  | H : match ?x with DecrementTake => _ | CancelProvide => _ | AbortTransaction => _ end = Ok _ |- _ => destruct x
  end.
Lemma ask_finish_sm o pr p a b c d x y o' pr' r : ask_finish o pr p a b c d x y = Ok (o', pr', r) -> sm o o'.
Proof.
  unfold ask_finish. intros H. cbv zeta in H. split_all; facts; unfold sm; repeat match goal with H : ob_mkt _ = _ |- _ => rewrite H in *; clear H end; cbn [set_mkt ob_mkt]; try apply accrue_same.
Qed.
Ltac chain := repeat match goal with
  | H : ob_mkt ?x = _ |- context [ob_mkt ?x] => rewrite H
  | |- context [ob_mkt (write_qty _ _ _ _ _)] => rewrite write_mkt
  | |- context [ob_mkt (set_orders _ _ _)] => rewrite set_orders_mkt
  | |- context [ob_mkt (set_mkt ?a ?b)] => change (ob_mkt (set_mkt a b)) with b
  end.
Lemma sm_mkt o o' m : ob_mkt o = m -> sm o o' -> same_market m (ob_mkt o').
Proof. intros <-. exact (fun H => H). Qed.
Lemma bid_finish_sm o pr p a b c d x y z w v o' pr' r : bid_finish o pr p a b c d x y z w v = Ok (o', pr', r) -> sm o o'.
Proof.
  unfold bid_finish. intros H. cbv zeta in H. split_all; facts; unfold sm; chain; try apply accrue_same.
Qed.
Lemma new_ask_sm o pr p q l po o' pr' r : new_ask o pr p q l po = Ok (o', pr', r) -> sm o o'.
Proof.
  unfold new_ask. intros H. cbv zeta in H. split_all; facts;
    try match goal with H : ask_finish _ _ _ _ _ _ _ _ _ = Ok _ |- _ => apply ask_finish_sm in H; eapply sm_trans; [|exact H] end;
    apply sm_eq; chain; reflexivity.
Qed.
Lemma new_bid_sm o pr p q lk l po o' pr' r : new_bid o pr p q lk l po = Ok (o', pr', r) -> sm o o'.
Proof.
  unfold new_bid. intros H. cbv zeta in H. split_all; facts;
    try match goal with H : bid_finish _ _ _ _ _ _ _ _ _ _ _ _ = Ok _ |- _ => apply bid_finish_sm in H; eapply sm_trans; [|exact H] end;
    apply sm_eq; chain; reflexivity.
Qed.
Lemma new_order_loop_sm n : forall o pr p sd po q lk o' pr' r, new_order_loop n o pr p sd po q lk = Ok (o', pr', r) -> sm o o'.
Proof.
  induction n as [|n IH]; intros * H; cbn [new_order_loop] in H; cbv zeta in H; apply rbind_ok in H; destruct H as ([[o1 pr1] r1] & H1 & H).
  - injection H as <- <- <-. destruct sd; split_all; first [eapply new_bid_sm; eassumption | eapply new_ask_sm; eassumption].
  - assert (S1 : sm o o1) by (destruct sd; split_all; first [eapply new_bid_sm; eassumption | eapply new_ask_sm; eassumption]).
    destruct r1 as [[q1 lk1]|]; [eapply sm_trans; [exact S1|]; eapply IH; exact H|]. injection H as <- <- <-. exact S1.
Qed.
Lemma new_order_sm o sd ot id w sl t q lk c st n o' pr r : new_order o sd ot id w sl t q lk c st n = Ok (o', pr, r) -> sm o o'.
Proof. apply new_order_loop_sm. Qed.

(** ** Open-orders accounts *)
Lemma sid_refl oo : same_id oo oo. Proof. unfold same_id. auto. Qed.
Ltac sid := split; [reflexivity|split; reflexivity].
Lemma unlock_coin_id oo x oo' : unlock_coin oo x = Ok oo' -> same_id oo oo'.
Proof. unfold unlock_coin. intros H. split_all. sid. Qed.
Lemma unlock_pc_id oo x oo' : unlock_pc oo x = Ok oo' -> same_id oo oo'.
Proof. unfold unlock_pc. intros H. split_all. sid. Qed.
Lemma lock_funds_frame o oo ix bal o1 oo1 d l : lock_funds o oo ix bal = Ok (o1, oo1, d, l) -> sm o o1 /\ same_id oo oo1.
Proof.
  unfold lock_funds. intros H. cbv zeta in H. destruct (oi_side ix); split_all; unfold lock_free_pc, credit_locked_pc, lock_free_coin, credit_locked_coin in *; split_all;
    (split; [reflexivity|sid]).
Qed.
Lemma add_order_id oo id sd oo1 sl : add_order oo id sd = Ok (oo1, sl) -> same_id oo oo1.
Proof. unfold add_order. intros H. cbv zeta in H. split_all. sid. Qed.
Theorem new_order_core_frame o rq oo k t ix bal now o' rq' oo' d : new_order_core o rq oo k t ix bal now = Ok (o', rq', oo', d) ->
  sm o o' /\ same_id oo oo' /\ fst rq = 0 /\ rq' = (fst rq, snd rq').
Proof.
  unfold new_order_core. intros H. apply rbind_ok in H. destruct H as (? & _ & H). apply rbind_ok in H. destruct H as (? & HQ & H). apply check_ok in HQ.
  apply rbind_ok in H. destruct H as ([[[o1 oo1] dep] lk] & HL & H). destruct (gen_order_id (snd rq) (oi_price ix) (oi_side ix)) as [id sq].
  apply rbind_ok in H. destruct H as ([oo2 slot] & HA & H). apply rbind_ok in H. destruct H as (? & _ & H). cbv zeta in H.
  apply rbind_ok in H. destruct H as ([[o2 pr] rem] & HN & H). apply rbind_ok in H. destruct H as (? & _ & H).
  apply rbind_ok in H. destruct H as (oo4 & HP & H). injection H; intros; subst. apply lock_funds_frame in HL. destruct HL as [L1 L2]. apply add_order_id in HA.
  apply new_order_sm in HN. apply apply_proceeds_ok in HP. destruct HP as ((P1 & P2 & P3 & _) & _).
  split; [eapply sm_trans; eassumption|]. split; [|split; [lia|reflexivity]]. apply (same_id_trans _ _ _ L2). apply (same_id_trans _ _ _ HA). unfold same_id. rewrite P1, P2, P3. auto.
Qed.
Theorem send_take_core_frame o rq t ix o' rq' d w : send_take_core o rq t ix = Ok (o', rq', d, w) -> sm o o' /\ rq' = (fst rq, snd rq').
Proof.
  unfold send_take_core. intros H. destruct (gen_order_id (snd rq) (ti_price ix) (ti_side ix)) as [id sq]. cbv zeta in H.
  apply rbind_ok in H. destruct H as ([[o1 pr] rem] & HN & H). apply new_order_sm in HN. apply rbind_ok in H. destruct H as (? & _ & H).
  destruct (ti_side ix); split_all; (split; [eapply sm_trans; [exact HN|apply same_market_set]|reflexivity]).
Qed.
Lemma cancel_leaf_frame o l sd oo k id o' oo' : cancel_leaf_node o l sd oo k id = Ok (o', oo') -> ob_mkt o' = ob_mkt o /\ same_id oo oo'.
Proof.
  unfold cancel_leaf_node. intros H. cbv zeta in H. do 4 (apply rbind_ok in H; destruct H as (? & _ & H)). apply rbind_ok in H; destruct H as (? & _ & H).
  apply rbind_ok in H; destruct H as (oo1 & HU & H). apply rbind_ok in H; destruct H as (o1 & HE & H). injection H as <- <-.
  split; [exact (emit_mkt _ _ _ HE)|]. destruct sd; [eapply unlock_pc_id|eapply unlock_coin_id]; exact HU.
Qed.
Lemma cancel_v2_frame o sd k oo id o' oo' : cancel_order_v2 o sd k oo id = Ok (o', oo') -> ob_mkt o' = ob_mkt o /\ same_id oo oo'.
Proof.
  unfold cancel_order_v2. intros H. apply rbind_ok in H. destruct H as ([sl ol] & _ & H). apply rbind_ok in H. destruct H as (l & _ & H).
  apply cancel_leaf_frame in H. rewrite set_orders_mkt in H. exact H.
Qed.
Lemma cancel_cid_frame o k oo c o' oo' : cancel_by_cid_core o k oo c = Ok (o', oo') -> ob_mkt o' = ob_mkt o /\ same_id oo oo'.
Proof.
  unfold cancel_by_cid_core. intros H. apply rbind_ok in H. destruct H as (? & _ & H). apply rbind_ok in H. destruct H as ([[? ?] ?] & _ & H).
  eapply cancel_v2_frame. exact H.
Qed.
Lemma cancel_each_frame k ids : forall o oo o' oo', cancel_each o k oo ids = Ok (o', oo') -> ob_mkt o' = ob_mkt o /\ same_id oo oo'.
Proof.
  induction ids as [|[id sd] r IH]; intros * H; cbn [cancel_each] in H; [injection H as <- <-; split; [reflexivity|apply sid_refl]|].
  destruct (cancel_order_v2 o sd k oo id) as [[o1 oo1]|er|] eqn:E; [| |discriminate].
  - apply cancel_v2_frame in E. destruct E as [E1 E2]. apply IH in H. destruct H as [H1 H2]. split; [congruence|eapply same_id_trans; eassumption].
  - destruct er; try discriminate. eapply IH; exact H.
Qed.
Lemma cancel_cids_frame o k oo c o' oo' : cancel_by_cids_core o k oo c = Ok (o', oo') -> ob_mkt o' = ob_mkt o /\ same_id oo oo'.
Proof. unfold cancel_by_cids_core. intros H. apply rbind_ok in H. destruct H as (? & _ & H). eapply cancel_each_frame. exact H. Qed.
Lemma cancel_leaves_frame sd k ls : forall o oo o' oo', cancel_leaves o oo sd k ls = Ok (o', oo') -> ob_mkt o' = ob_mkt o /\ same_id oo oo'.
Proof.
  induction ls as [|l r IH]; intros * H; cbn [cancel_leaves] in H; [injection H as <- <-; split; [reflexivity|apply sid_refl]|].
  apply rbind_ok in H. destruct H as (id & _ & H). apply rbind_ok in H. destruct H as ([o1 oo1] & HC & H). apply cancel_leaf_frame in HC. apply IH in H.
  destruct HC as [E1 E2], H as [H1 H2]. split; [congruence|eapply same_id_trans; eassumption].
Qed.
Lemma prune_frame o oo k n o' oo' : prune_core o oo k n = Ok (o', oo') -> ob_mkt o' = ob_mkt o /\ same_id oo oo'.
Proof.
  unfold prune_core. intros H. apply rbind_ok in H. destruct H as ([[o1 bl] al] & HR & H). apply rbind_ok in H. destruct H as ([o2 oo2] & HC & H).
  apply cancel_leaves_frame in HC, H. destruct HC as [E1 E2], H as [H1 H2]. split; [|eapply same_id_trans; eassumption].
  rewrite H1, E1. unfold remove_all in HR. destruct (find_by (ob_asks o) (Z.to_nat n) _) as [aks l1]. destruct (find_by (ob_bids o) l1 _) as [bks l2].
  apply rbind_ok in HR. destruct HR as ([? ?] & _ & HR). apply rbind_ok in HR. destruct HR as ([? ?] & _ & HR). injection HR as <- _ _. reflexivity.
Qed.
Lemma consume_event_frame oo v oo' : consume_event oo v = Ok oo' -> same_id oo oo'.
Proof.
  unfold consume_event. intros H. destruct (match v with EvFill sd _ _ _ _ id _ slot _ _ => (sd, slot, id) | EvOut sd _ _ _ id _ slot _ => (sd, slot, id) end) as [[sd sl] id].
  do 4 (apply rbind_ok in H; destruct H as (? & _ & H)). destruct v as [s mk0 ? ? ? ? ? ? ? ?|s rl ? st ? ? ? ?]; cbv zeta in H.
  - injection H as <-. destruct mk0, s; sid.
  - apply rbind_ok in H. destruct H as (? & _ & H). destruct (st =? 0); [unfold remove_order in H; split_all|injection H as <-]; destruct s, rl; sid.
Qed.
Lemma settle_frame m oo r m' oo' a b c : settle_core m oo r = Ok (m', oo', a, b, c) -> same_market m m' /\ same_id oo oo'.
Proof. unfold settle_core. intros H. cbv zeta in H. split_all. split; [apply same_market_set|sid]. Qed.
