(** What it takes for a SendTake to be accepted, stated over the market and the two wallets only. *)
From Verif Require Import Base Critbit Codec Market Core Store.

(** The most a take may spend, the smallest proceeds it accepts, and what the market pays out for [got]
    units of that minimum: coin lots for a bid, native price currency for an ask. *)
Definition may_spend (sd : side) (qty pc coin_lot : Z) : Z := match sd with Bid => pc | Ask => qty * coin_lot end.
Definition minimum (sd : side) (min_coin min_pc : Z) : Z := match sd with Bid => min_coin | Ask => min_pc end.
Definition paid_out (sd : side) (got coin_lot : Z) : Z := match sd with Bid => got * coin_lot | Ask => got end.
(** The wallet that pays and the one that is paid. *)
Definition spends_from (sd : side) (coin_wallet pc_wallet : Z) : Z := match sd with Bid => pc_wallet | Ask => coin_wallet end.
Definition receives_in (sd : side) (coin_wallet pc_wallet : Z) : Z := match sd with Bid => coin_wallet | Ask => pc_wallet end.
(** The vault that pays out, its mint, and all the market holds for its users in that currency. *)
Definition pays_from (m : market) (sd : side) : Z := match sd with Bid => m_coin_vault m | Ask => m_pc_vault m end.
Definition pays_out (m : market) (sd : side) : Z := match sd with Bid => m_coin_mint m | Ask => m_pc_mint m end.
Definition held (m : market) (sd : side) : Z := match sd with Bid => m_coin_deposits m | Ask => m_pc_deposits m end.
