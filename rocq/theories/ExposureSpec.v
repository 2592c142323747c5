(** What a trader can gain and lose by the orders of an account.  Nothing here is part of the program. *)
From Verif Require Import Base Fees Critbit CritbitSlab Codec ListSum Market Matching Ledger MatchSteps MatchSpec Core Instr InstrProofs Store Process StoreProofs World WorldSpec LifeSpec AbsentSpec StatementSpec OpenSpec.

(** What a trade buys, sells, and costs the buyer, fee included. *)
Definition bought (v : event_view) : Z := match v with EvFill Bid _ _ received _ _ _ _ _ _ => received | _ => 0 end.
Definition sold (v : event_view) : Z := match v with EvFill Ask _ paid _ _ _ _ _ _ _ => paid | _ => 0 end.
Definition spent (v : event_view) : Z := match v with EvFill Bid _ paid _ _ _ _ _ _ _ => paid | _ => 0 end.
(** What an order asks for at most: coin to buy, coin to sell, money to buy with. *)
Definition to_buy (m : market) (ix : order_ix) : Z := match oi_side ix with Bid => oi_qty ix * m_coin_lot m | Ask => 0 end.
Definition to_sell (m : market) (ix : order_ix) : Z := match oi_side ix with Ask => oi_qty ix * m_coin_lot m | Bid => 0 end.
Definition to_spend (ix : order_ix) : Z := match oi_side ix with Bid => oi_pc ix | Ask => 0 end.
(** What the orders of account [x] resting on a side may still trade, in coin and in money. *)
Definition open_coin (m : market) (x : Z) (bk : list leaf) : Z := zsum (fun l => l_qty l * m_coin_lot m) (own_orders x bk).
Definition open_cost (m : market) (x : Z) (bk : list leaf) : Z := zsum (fun l => l_qty l * l_price l * m_pc_lot m) (own_orders x bk).

(** The orders that an instruction places for account [x] on market [k]. *)
Definition asked (k x : Z) (i : instr) (ms : list meta) : list order_ix :=
  match key_at ms 0, acts_for i ms with Some k', Some x' => if (k' =? k) && (x' =? x) then orders_in i else [] | _, _ => [] end.
(** A stretch of a history with the events queued on market [k], the orders that were placed for account [x], and
    the lines of the statement of that account (see StatementSpec.v). *)
Inductive dealings (e : env) (k x : Z) (s : store) : list event_view -> list order_ix -> list amounts -> store -> Prop :=
| dealings_now : dealings e k x s [] [] [] s
| dealings_tx E B T s1 c b ms i s2 E1 : dealings e k x s E B T s1 -> no_overflow e s1 -> sized s1 -> is_bytes b -> legal e ms ->
    unpack b = Some i -> process e c s1 i ms = Ok s2 -> queued e k s1 s2 E1 -> dealings e k x s (E ++ E1) (B ++ asked k x i ms) (T ++ [entry e k x s1 s2 i ms]) s2
| dealings_env E B T s1 s2 : dealings e k x s E B T s1 -> rely e s1 s2 -> dealings e k x s E B T s2.
