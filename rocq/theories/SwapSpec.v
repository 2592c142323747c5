(** An immediate-or-cancel order and the settlement after it, taken together.  Nothing here is part of the program. *)
From Verif Require Import Base Fees Critbit Codec ListSum Market Matching MatchSteps MatchSpec Ledger Core Instr Store Process StoreProofs World WorldSpec.

(** The order of account [x] trades in rounds [tr], nothing of it stays, and all that was free in the account or came
    from the order is paid out.  [dep] is taken from the payer. *)
Definition swapped (e : env) (s s' : store) (k : Z) (m : market) (A : astate) (L : list (Z * open_orders)) (ix : order_ix) (t : tier) (x payer : Z) (oo : open_orders) (cw pw : Z) (ref : option Z) : Prop :=
  exists m' A' L' oo' tr q' E slot id dep,
    let sd := oi_side ix in let tk := mkTaker sd id x slot t (oi_cid ix) (oi_st ix) false in let cl := m_coin_lot m in let pl := m_pc_lot m in
    let lots := zsum (tr_coin tk) tr in let val := zsum (tr_value pl tk) tr in
    let fee := zsum (tr_fee pl tk) tr in let fifth := zsum (tr_fifth pl tk) tr in
    let coin_out := match sd with Bid => oo_coin_free oo + lots * cl | Ask => oo_coin_free oo + dep - lots * cl end in
    let pc_out := match sd with Bid => oo_pc_free oo + dep - val - fee | Ask => oo_pc_free oo + val - fee end in
    let kept := match ref with Some _ => 0 | None => oo_rebates oo end in
    seen e s' k m' A' L' /\ tk_limit tk = oi_price ix /\
    rounds tk (oi_qty ix) (book_of A (other sd)) tr q' (book_of A' (other sd)) /\
    eager pl tk (Z.to_nat (oi_limit ix)) (oi_qty ix) (match sd with Bid => oi_pc ix | Ask => 0 end) (book_of A (other sd)) tr /\
    book_of A' sd = book_of A sd /\
    (a_evs A' = a_evs A ++ E /\ exists gs Ee, E = concat gs ++ Ee /\ Forall2 (reported cl pl tk) tr gs /\ (forall v, In v Ee -> ev_owner v = x)) /\
    (forall y oy, In (y, oy) L' <-> (y = x /\ oy = oo') \/ (y <> x /\ In (y, oy) L)) /\
    changed_by oo oo' (- oo_coin_free oo) (- oo_coin_free oo) (- oo_pc_free oo) (- oo_pc_free oo) (- oo_rebates oo) /\
    dep = match sd with Bid => Z.max 0 (oi_pc ix - oo_pc_free oo) | Ask => Z.max 0 (oi_qty ix * cl - oo_coin_free oo) end /\
    moves s s' ([(payer, match sd with Bid => m_pc_vault m | Ask => m_coin_vault m end, dep); (m_coin_vault m, cw, coin_out); (m_pc_vault m, pw, pc_out)] ++
                match ref with Some r => [(m_pc_vault m, r, oo_rebates oo)] | None => [] end) /\
    m' = set_counters m
      (m_coin_deposits m + match sd with Bid => - lots * cl | Ask => lots * cl end - oo_coin_free oo)
      (m_pc_deposits m + match sd with Bid => val | Ask => - val end - oo_pc_free oo)
      (m_pc_fees m + fee - fifth + kept) (m_rebates m + fifth - oo_rebates oo).

(** The same trade asked for as a send-take and as an order. *)
Definition same_ask (a : take_ix) (b : order_ix) : Prop :=
  ti_side a = oi_side b /\ ti_price a = oi_price b /\ ti_qty a = oi_qty b /\ ti_pc a = oi_pc b /\ ti_limit a = oi_limit b.
(** Nothing free in the account. *)
Definition idle (oo : open_orders) : Prop := oo_coin_free oo = 0 /\ oo_pc_free oo = 0 /\ oo_rebates oo = 0.
(** The events about account [y], their fee tiers aside. *)
Definition tierless (v : event_view) : event_view := match v with EvFill s mk p r f id o sl _ c => EvFill s mk p r f id o sl TBase c | _ => v end.
Definition told (y : Z) (E : list event_view) : list event_view := map tierless (filter (fun v => ev_owner v =? y) E).
