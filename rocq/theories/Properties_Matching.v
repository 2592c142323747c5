(** Properties of matching one order (C13-C20) for every well-formed market state and every order.
    [rep o A] says that the stored books and event queue hold exactly the orders and events of [A];
    [ready] lists what the instructions guarantee about state and order, and the world theorems
    show that reachable states satisfy it.  A send-take has owner 0; its caller rejects it unless
    the amount spent fits in 64 bits, which is the last hypothesis. *)
From Verif Require Import Base Fees Critbit CritbitProofs CritbitSlab Codec ListSum Market Matching MatchSteps MatchRefine
  Ledger MatchSpec MatchOrder MatchFacts MatchExample.

(** C13, one order: an uncrossed book stays uncrossed. *)
Theorem C13_order_keeps_uncrossed : forall o A sd ot id owner slot t qty pc cid st limit o' pr rem,
  rep o A -> ready o A sd ot id owner qty pc st ->
  new_order o sd ot id owner slot t qty pc cid st limit = Ok (o', pr, rem) -> owner <> 0 \/ spent o sd pr < B64 ->
  uncrossed (a_bids A) (a_asks A) -> exists A', rep o' A' /\ uncrossed (a_bids A') (a_asks A').
Proof. exact stays_uncrossed. Qed.
Print Assumptions C13_order_keeps_uncrossed.

(** C14: every order in either book afterwards was there before, possibly larger. *)
Theorem C14_ioc_never_rests : forall o A sd ot id owner slot t qty pc cid st limit o' pr rem,
  rep o A -> ready o A sd ot id owner qty pc st ->
  new_order o sd ot id owner slot t qty pc cid st limit = Ok (o', pr, rem) -> owner <> 0 \/ spent o sd pr < B64 ->
  ot = ImmediateOrCancel ->
  exists A', rep o' A' /\ forall s l, In l (book_of A' s) -> exists l0, In l0 (book_of A s) /\ same_order l0 l.
Proof. exact ioc. Qed.
Print Assumptions C14_ioc_never_rests.

(** C15: no fill, no fee, opposite book untouched, own book untouched except for the order itself
    and an eviction; if it would cross, everything is handed back. *)
Theorem C15_post_only_never_takes : forall o A sd ot id owner slot t qty pc cid st limit o' pr rem,
  rep o A -> ready o A sd ot id owner qty pc st ->
  new_order o sd ot id owner slot t qty pc cid st limit = Ok (o', pr, rem) -> owner <> 0 \/ spent o sd pr < B64 ->
  ot = PostOnly ->
  exists A' E, rep o' A' /\ a_evs A' = a_evs A ++ E /\ nofill E /\ ob_mkt o' = ob_mkt o /\
    book_of A' (other sd) = book_of A (other sd) /\
    p_coin_debit pr = 0 /\ p_pc_debit pr = 0 /\ p_coin_credit pr = 0 /\ p_pc_credit pr = 0 /\
    (book_of A' sd = book_of A sd \/
     exists n, let l := mkLeaf slot (tier_to_u8 t) id owner n cid in
       0 < n <= qty /\
       (book_of A' sd = lins l (book_of A sd) \/
        ~ room o A sd /\ exists w, worst_of sd w (book_of A sd) /\ book_of A' sd = lins l (ldel (l_key w) (book_of A sd)))) /\
    ((exists x, In x (book_of A (other sd)) /\ within sd (id / B64) (l_price x)) ->
     book_of A' sd = book_of A sd /\ p_coin_unlocked pr = match sd with Ask => qty | Bid => 0 end /\
     p_pc_unlocked pr = match sd with Ask => 0 | Bid => pc end).
Proof. exact post_only_facts. Qed.
Print Assumptions C15_post_only_never_takes.

(** C16: the order goes through [rounds], each against the best order then in the book and within
    the limit; the events appended are exactly the reports of those rounds - a fill at the resting
    order's price - followed by events that are not fills. *)
Theorem C16_trades_at_resting_price : forall o A sd ot id owner slot t qty pc cid st limit o' pr rem,
  rep o A -> ready o A sd ot id owner qty pc st ->
  new_order o sd ot id owner slot t qty pc cid st limit = Ok (o', pr, rem) -> owner <> 0 \/ spent o sd pr < B64 ->
  let k := mkTaker sd id owner slot t cid st (owner =? 0) in
  exists A' tr q' gs Eend, rep o' A' /\ a_evs A' = a_evs A ++ concat gs ++ Eend /\
    rounds k qty (book_of A (other sd)) tr q' (book_of A' (other sd)) /\
    Forall2 (reported (m_coin_lot (ob_mkt o)) (m_pc_lot (ob_mkt o)) k) tr gs /\ nofill Eend.
Proof. exact trades. Qed.
Print Assumptions C16_trades_at_resting_price.

(** C17: [n] lots are left resting, [tr] are the rounds. *)
Theorem C17_taker_spend_exact : forall o A sd ot id owner slot t qty pc cid st limit o' pr rem,
  rep o A -> ready o A sd ot id owner qty pc st ->
  new_order o sd ot id owner slot t qty pc cid st limit = Ok (o', pr, rem) -> owner <> 0 \/ spent o sd pr < B64 ->
  let k := mkTaker sd id owner slot t cid st (owner =? 0) in
  let pl := m_pc_lot (ob_mkt o) in
  exists A' tr q' n, rep o' A' /\
  rounds k qty (book_of A (other sd)) tr q' (book_of A' (other sd)) /\
  0 <= n /\ n + zsum (tr_coin k) tr <= qty /\
  match sd with
  | Ask => p_coin_debit pr = zsum (tr_coin k) tr /\ p_pc_credit pr = zsum (tr_value pl k) tr - zsum (tr_fee pl k) tr /\
           (owner <> 0 -> p_coin_debit pr + p_coin_unlocked pr + n = qty)
  | Bid => p_coin_credit pr = zsum (tr_coin k) tr /\ p_pc_debit pr = zsum (tr_value pl k) tr + zsum (tr_fee pl k) tr /\
           p_pc_debit pr <= pc /\ (owner <> 0 -> p_pc_debit pr + p_pc_unlocked pr + n * (id / B64) * pl = pc)
  end /\
  (book_of A' sd = book_of A sd /\ n = 0 \/
   0 < n /\ In (mkLeaf slot (tier_to_u8 t) id owner n cid) (book_of A' sd)).
Proof. exact spending. Qed.
Print Assumptions C17_taker_spend_exact.

(** C18: a meeting with an order of the same account never happens with Abort (the order fails),
    takes the whole resting order and nothing of the incoming one with CancelProvide, and the same
    quantity of both with DecrementTake; it reports no fill and charges no fee. *)
Theorem C18_self_trade : forall o A sd ot id owner slot t qty pc cid st limit o' pr rem,
  rep o A -> ready o A sd ot id owner qty pc st ->
  new_order o sd ot id owner slot t qty pc cid st limit = Ok (o', pr, rem) -> owner <> 0 \/ spent o sd pr < B64 ->
  let k := mkTaker sd id owner slot t cid st (owner =? 0) in
  exists A' tr q' gs Eend, rep o' A' /\ a_evs A' = a_evs A ++ concat gs ++ Eend /\
    rounds k qty (book_of A (other sd)) tr q' (book_of A' (other sd)) /\
    Forall2 (reported (m_coin_lot (ob_mkt o)) (m_pc_lot (ob_mkt o)) k) tr gs /\
    (forall b n, In (b, n) tr -> l_owner b = owner ->
       st <> AbortTransaction /\
       (st = CancelProvide -> n = l_qty b /\ used k (b, n) = 0) /\
       (st = DecrementTake -> used k (b, n) = n) /\
       tr_fee (m_pc_lot (ob_mkt o)) k (b, n) = 0) /\
    (forall b n g, In ((b, n), g) (combine tr gs) -> l_owner b = owner -> nofill g).
Proof. exact self_trades. Qed.
Print Assumptions C18_self_trade.
(** C18, Abort: an order that would meet an order of its own account first is refused. *)
Theorem C18_abort_refuses : forall o A sd ot id owner slot t qty pc cid limit b,
  rep o A -> ready o A sd ot id owner qty pc AbortTransaction ->
  best_of (other sd) b (book_of A (other sd)) -> within sd (id / B64) (l_price b) -> l_owner b = owner ->
  ot <> PostOnly -> (0 < limit)%nat ->
  (sd = Bid -> l_price b * m_pc_lot (ob_mkt o) + taker_fee t (l_price b * m_pc_lot (ob_mkt o)) <= pc) ->
  new_order o sd ot id owner slot t qty pc cid AbortTransaction limit = Err EWouldSelfTrade.
Proof. exact abort_refuses. Qed.
Print Assumptions C18_abort_refuses.

(** C19: at most [limit] rounds meet a resting order; nothing is left over; if something still
    crosses at the end the remainder is not posted, and if nothing does an ask's remainder is. *)
Theorem C19_match_limit : forall o A sd ot id owner slot t qty pc cid st limit o' pr rem,
  rep o A -> ready o A sd ot id owner qty pc st ->
  new_order o sd ot id owner slot t qty pc cid st limit = Ok (o', pr, rem) -> owner <> 0 \/ spent o sd pr < B64 ->
  let k := mkTaker sd id owner slot t cid st (owner =? 0) in
  exists A' tr q', rep o' A' /\ rem = None /\
  rounds k qty (book_of A (other sd)) tr q' (book_of A' (other sd)) /\ (length tr <= limit)%nat /\
  ((exists x, In x (book_of A' (other sd)) /\ within sd (id / B64) (l_price x)) -> book_of A' sd = book_of A sd) /\
  (ot <> ImmediateOrCancel -> sd = Ask -> 0 < q' ->
   (forall x, In x (book_of A' (other sd)) -> ~ within sd (id / B64) (l_price x)) ->
   In (mkLeaf slot (tier_to_u8 t) id owner q' cid) (book_of A' sd)).
Proof. exact limits. Qed.
Print Assumptions C19_match_limit.
(** C19: on a well-formed state the only failures are a full event queue and a refused self-trade. *)
Theorem C19_never_panics : forall o A sd ot id owner slot t qty pc cid st limit,
  rep o A -> ready o A sd ot id owner qty pc st ->
  match new_order o sd ot id owner slot t qty pc cid st limit with
  | Ok (_, _, rem) => rem = None
  | Err e => e = EEventQueueFull \/ e = EWouldSelfTrade
  | Panic => False
  end.
Proof. exact never_panics. Qed.
Print Assumptions C19_never_panics.

(** C20: when the own side is full. *)
Theorem C20_eviction : forall o A sd ot id owner slot t qty pc cid st limit o' pr rem,
  rep o A -> ready o A sd ot id owner qty pc st ->
  new_order o sd ot id owner slot t qty pc cid st limit = Ok (o', pr, rem) -> owner <> 0 \/ spent o sd pr < B64 ->
  ~ room o A sd ->
  exists A' E, rep o' A' /\ a_evs A' = a_evs A ++ E /\
  (book_of A' sd = book_of A sd \/
   exists w n E0, worst_of sd w (book_of A sd) /\ 0 < n /\
     (forall l, In l (book_of A' sd) <->
        l = mkLeaf slot (tier_to_u8 t) id owner n cid \/ In l (book_of A sd) /\ l_key l <> l_key w) /\
     E = E0 ++ [EvOut sd true (backing (m_coin_lot (ob_mkt o)) (m_pc_lot (ob_mkt o)) sd (l_qty w) (l_price w)) 0
                      (l_key w) (l_owner w) (l_slot w) (l_cid w)]).
Proof. exact eviction. Qed.
Print Assumptions C20_eviction.

Local Ltac run := eexists _, _; split; [vm_compute; reflexivity|];
  repeat (match goal with |- _ /\ _ => split end); vm_compute; reflexivity.
(** The hypotheses are met by a market with two asks of different owners on a full side: a bid that
    trades through both, an immediate-or-cancel bid, a post-only bid, an ask that evicts, and a
    self-trade. *)
Example matching_nonvacuous :
  rep ex2 exA /\ uncrossed (a_bids exA) (a_asks exA) /\ ~ room ex2 exA Ask /\
  ready ex2 exA Bid Limit (ex_id 6 100) 99 9 1000 AbortTransaction /\
  (exists o' pr, new_order ex2 Bid Limit (ex_id 6 100) 99 1 TBase 9 1000 55 AbortTransaction 7 = Ok (o', pr, None) /\
     p_coin_credit pr = 7 /\ p_pc_debit pr = 78 /\ map l_qty (book (ob_bids o')) = [2] /\ book (ob_asks o') = []) /\
  (exists o' pr, new_order ex2 Bid ImmediateOrCancel (ex_id 5 100) 0 0 TBase 9 1000 0 AbortTransaction 7 = Ok (o', pr, None) /\
     p_coin_credit pr = 4 /\ spent ex2 Bid pr = 41 /\ book (ob_bids o') = []) /\
  ready ex2 exA Bid PostOnly (ex_id 6 100) 99 9 1000 DecrementTake /\
  (exists o' pr, new_order ex2 Bid PostOnly (ex_id 6 100) 99 1 TBase 9 1000 55 DecrementTake 7 = Ok (o', pr, None) /\
     p_pc_unlocked pr = 1000 /\ book (ob_bids o') = []) /\
  ready ex2 exA Ask Limit (ex_id 7 2) 99 9 0 DecrementTake /\
  (exists o' pr, new_order ex2 Ask Limit (ex_id 7 2) 99 1 TBase 9 0 55 DecrementTake 7 = Ok (o', pr, None) /\
     map l_owner (book (ob_asks o')) = [77; 99]) /\
  ready ex2 exA Bid Limit (ex_id 6 100) 77 9 1000 AbortTransaction /\
  new_order ex2 Bid Limit (ex_id 6 100) 77 1 TBase 9 1000 55 AbortTransaction 7 = Err EWouldSelfTrade /\
  (exists o' pr, new_order ex2 Bid Limit (ex_id 6 100) 77 1 TBase 9 1000 55 CancelProvide 7 = Ok (o', pr, None) /\
     p_coin_credit pr = 3 /\ map l_qty (book (ob_bids o')) = [6] /\ book (ob_asks o') = []).
Proof.
  split; [exact ex_rep|]. split; [intros b a []|].
  split; [unfold room, has_room; vm_compute; congruence|].
  split; [ex_ready|]. split; [run|].
  split; [run|].
  split; [ex_ready|]. split; [run|].
  split; [ex_ready|]. split; [run|].
  split; [ex_ready|]. split; [vm_compute; reflexivity|].
  run.
Qed.
