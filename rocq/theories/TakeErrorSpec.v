(** What the errors of a SendTake mean, stated over the books, the wallets and the instruction only. *)
From Verif Require Import Base Fees ListSum Queue Codec Critbit CritbitSlab Market Matching MatchSteps Ledger MatchSpec Core Instr Store StoreProofs World WorldInv WorldSpec PlaceSpec TakeSpec.

(** The taker a SendTake is at tier [t], number [num] on its market. *)
Definition taking (ix : take_ix) (t : tier) (num : Z) : taker := mkTaker (ti_side ix) (numbered (ti_side ix) (ti_price ix) num) 0 0 t 0 AbortTransaction true.
(** It trades in the rounds [tr] and reports the events [E]. *)
Definition would_trade (m : market) (A : astate) (ix : take_ix) (t : tier) (num : Z) (tr : list round) (E : list event_view) : Prop :=
  exists opp' q' n room, let sd := ti_side ix in
    report (m_coin_lot m) (m_pc_lot m) (taking ix t num) (Z.to_nat (ti_limit ix)) false room false (ti_qty ix)
      (match sd with Bid => ti_pc ix | Ask => 0 end) (book_of A (other sd)) (book_of A sd) opp' (book_of A sd) E tr q' n.
(** What the rounds cost and what they bring: coin lots for a bid, native price currency for an ask. *)
Definition costs (m : market) (k : taker) (tr : list round) : Z :=
  match tk_side k with
  | Bid => zsum (tr_value (m_pc_lot m) k) tr + zsum (tr_fee (m_pc_lot m) k) tr
  | Ask => zsum (tr_coin k) tr * m_coin_lot m
  end.
Definition brings (m : market) (k : taker) (tr : list round) : Z :=
  match tk_side k with
  | Bid => zsum (tr_coin k) tr
  | Ask => zsum (tr_value (m_pc_lot m) k) tr - zsum (tr_fee (m_pc_lot m) k) tr
  end.
Section Take.
Variables (e : env) (s : store) (k : Z) (m : market) (A : astate) (ix : take_ix).
(** [w] signs; [cw] and [pw] are the wallets, [disc] the discount account, if any. *)
Variables (w cw pw : Z) (disc : option Z).
Let sd := ti_side ix.
Let src := spends_from sd cw pw. Let dst := receives_in sd cw pw.
Definition take_error (er : err) : Prop :=
  exists num t, next_number e s m num /\ tier_for s k w disc t /\
  match er with
  | EMinAmountNotMet => exists tr E, would_trade m A ix t num tr E /\ brings m (taking ix t num) tr < minimum sd (ti_min_coin ix) (ti_min_pc ix)
  | EEventQueueFull => exists q, dexd e s (m_event_q m) = Some (DEventQ q) /\
      zlen (q_buf q) < zlen (a_evs A) + events_needed (book_of A (other sd)) sd (ti_price ix) 0 AbortTransaction (ti_limit ix) /\
      (zlen (q_buf q) < 4611686018427387904 -> exists tr E, would_trade m A ix t num tr E /\ zlen (q_buf q) < zlen (a_evs A) + zlen E)
  | EInsufficientFunds => exists tr E ts, would_trade m A ix t num tr E /\ token_at s src = Some ts /\
      let cost := costs m (taking ix t num) tr in t_amount ts < cost \/ (t_delegate ts = Some w /\ t_delegated ts < cost)
  | ETransferFailed => exists tr E ts td ti, would_trade m A ix t num tr E /\ token_at s src = Some ts /\ token_at s dst = Some td /\ token_at s (pays_into m sd) = Some ti /\
      let cost := costs m (taking ix t num) tr in let out := paid_out sd (brings m (taking ix t num) tr) (m_coin_lot m) in
      (0 < cost /\ ((t_owner ts <> w /\ t_delegate ts <> Some w) \/ In w [k; m_req_q m; m_event_q m; m_bids m; m_asks m] \/ B64 <= t_amount ti + cost)) \/
      (0 < out /\ B64 <= t_amount td + out)
  | _ => False
  end.
End Take.
