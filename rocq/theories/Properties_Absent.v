(** What others can do to a trader who signs nothing (C64).  [absent e k w s E s']: from [s] any transactions with any
    bytes and accounts lead to [s'], none of them signed by [w], and [E] are the events queued on market [k]
    meanwhile.  [coin_claim] and [pc_claim] are all an account has on the market, locked or not, counting
    the trades whose events are still queued (AbsentSpec.v). *)
From Verif Require Import Base Fees ListSum Codec Critbit CritbitSlab Market Matching Slots MatchSteps Ledger MatchSpec Core Instr InstrProofs Store Process StoreProofs World WorldSpec LifeSpec LifeMain AbsentSpec AbsentProofs WorldExample ExampleAbsent.

(** Whatever others do, the account is still there with its owner, what it can withdraw has not become less, no
    order appeared and none grew, and what it has changed by exactly this: of each bid that rested, some of
    its lots were bought at its own price, and of each ask that rested, some were sold at its own price. *)
Theorem C64_the_absent_trader : forall e, env_ok e -> forall k w s E s' m A L m' A' L' x oo, history e s -> absent e k w s E s' -> seen e s k m A L -> usable m -> seen e s' k m' A' L' -> In (x, oo) L -> oo_owner oo = w ->
  exists oo' bought sold, In (x, oo') L' /\ oo_owner oo' = w /\ no_less oo oo' /\
    within A' Bid bought (own_orders x (a_bids A)) /\ within A' Ask sold (own_orders x (a_asks A)) /\
    coin_claim x oo' A' = coin_claim x oo A + m_coin_lot m * lots bought (own_orders x (a_bids A)) - m_coin_lot m * lots sold (own_orders x (a_asks A)) /\
    pc_claim x oo' A' = pc_claim x oo A - m_pc_lot m * cost bought (own_orders x (a_bids A)) + m_pc_lot m * cost sold (own_orders x (a_asks A)) /\
    forall sd y, In y (own_orders x (book_of A' sd)) -> exists l, In l (own_orders x (book_of A sd)) /\ y = set_qty l (l_qty y) /\ 0 < l_qty y <= l_qty l.
Proof. exact absent_trader. Qed.
Print Assumptions C64_the_absent_trader.
(** The events say so: each one of the account is about an order of it that rested. *)
Theorem C64_the_events : forall e, env_ok e -> forall k w s E s', absent e k w s E s' -> history e s -> forall m A L x oo, seen e s k m A L -> usable m -> In (x, oo) L -> oo_owner oo = w ->
  forall v, In v E -> ev_owner v = x -> exists sd l, In l (book_of A sd) /\ l_owner l = x /\ about sd (l_key l) v = true.
Proof. exact absent_events. Qed.
Print Assumptions C64_the_events.

(** Alice is away; Bob buys her 4 lots at 50 and somebody processes the events. *)
Example C64_case : history ex_env w3 /\ absent ex_env 10 100 w3 (([] ++ ab_E) ++ []) w5 /\ seen ex_env w3 10 w3_m w3_A w3_L /\ usable w3_m /\ seen ex_env w5 10 ab5_m ab5_A ab5_L /\ In (101, alice3) w3_L /\ oo_owner alice3 = 100 /\
  In (101, alice5) ab5_L /\ coin_claim 101 alice5 ab5_A = coin_claim 101 alice3 w3_A - 40 /\ pc_claim 101 alice5 ab5_A = pc_claim 101 alice3 w3_A + 200000 /\
  length (own_orders 101 (a_asks w3_A)) = 2%nat /\ length (own_orders 101 (a_asks ab5_A)) = 1%nat /\ exists v, In v (([] ++ ab_E) ++ []) /\ ev_owner v = 101.
Proof.
  split; [exact w3_h|]. split; [exact ab5_absent|]. split; [exact w3_seen|]. split; [exact w3_usable|]. split; [exact ab5_seen|]. split; [vm_compute; auto|]. split; [vm_compute; reflexivity|]. split; [vm_compute; auto|].
  split; [vm_compute; reflexivity|]. split; [vm_compute; reflexivity|]. split; [vm_compute; reflexivity|]. split; [vm_compute; reflexivity|]. exists (nth 0 ab_E (EvOut Ask true 0 0 0 0 0 0)). vm_compute. auto.
Qed.
