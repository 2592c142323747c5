(** Comparing orders: what one order and another, each placed in the same state, would trade.  Nothing here is part of
    the program. *)
From Verif Require Import Base Fees Critbit Codec ListSum Market Matching MatchSteps MatchSpec Ledger Core Instr InstrProofs Store Process StoreProofs World WorldSpec.

(** The terms of an order: side, limit price, lots, quote currency (of a bid), number of meetings; the account, 0 if
    there is none; and what to do on meeting an order of the same account. *)
Record terms := mkTerms { tm_side : side; tm_price : Z; tm_lots : Z; tm_money : Z; tm_meetings : Z; tm_account : Z; tm_own : self_trade }.
Definition terms_of (i : instr) (ms : list meta) : option terms :=
  match i with
  | INewOrderV3 ix => match oi_ot ix, key_at ms 1 with
                      | PostOnly, _ | _, None => None
                      | _, Some x => Some (mkTerms (oi_side ix) (oi_price ix) (oi_qty ix) (oi_pc ix) (oi_limit ix) x (oi_st ix))
                      end
  | ISendTake ix => Some (mkTerms (ti_side ix) (ti_price ix) (ti_qty ix) (ti_pc ix) (ti_limit ix) 0 AbortTransaction)
  | _ => None
  end.
(** [b] is at least as generous as [a]. *)
Definition as_generous (a b : terms) : Prop :=
  tm_side b = tm_side a /\ match tm_side a with Bid => tm_price a <= tm_price b /\ tm_money a <= tm_money b | Ask => tm_price b <= tm_price a end /\
  tm_lots a <= tm_lots b /\ tm_meetings a <= tm_meetings b.
(** Book [bk] holds the same own orders for both, treated alike. *)
Definition same_own (a b : terms) (bk : list leaf) : Prop :=
  forall l, In l bk -> (tm_account a = l_owner l <-> tm_account b = l_owner l) /\ (tm_account a = l_owner l -> tm_own a = tm_own b).
(** The second sender's fee rate, for market [k'] in state [s'], is not higher than the first's, for market [k] in [s]. *)
Definition no_dearer (s : store) (k : Z) (ms : list meta) (s' : store) (k' : Z) (ms' : list meta) : Prop :=
  forall w w' t t', signs ms 7 w -> signs ms' 7 w' -> tier_for s k w (key_at ms 12) t -> tier_for s' k' w' (key_at ms' 12) t' -> taker_rate t' <= taker_rate t.
(** Markets [m] and [m'] have the same lots, and the same orders stand on side [sd] of the books of [A] and [A']. *)
Definition same_side (m : market) (A : astate) (m' : market) (A' : astate) (sd : side) : Prop :=
  m_coin_lot m' = m_coin_lot m /\ m_pc_lot m' = m_pc_lot m /\ book_of A' sd = book_of A sd.
(** Base currency traded with the resting order [key]. *)
Definition with_order (key : Z) (v : event_view) : Z :=
  match v with
  | EvFill Bid true _ received _ id _ _ _ _ => if id =? key then received else 0
  | EvFill Ask true paid _ _ id _ _ _ _ => if id =? key then paid else 0
  | _ => 0
  end.
