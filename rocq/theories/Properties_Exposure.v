(** A trader never gains or loses more than the orders of the account allow (C74).  [dealings e k x s E B T s']: any
    transactions, with any bytes and accounts, lead from [s] to [s'], [E] are the events queued on market [k]
    meanwhile, [B] are the orders placed for account [x] on that market by transactions that went through, and [T]
    are the lines of the account's statement: what went into the vaults for it and what was paid out (ExposureSpec.v,
    StatementSpec.v).  [open_coin] and [open_cost] are what the account's resting orders may still trade, in coin and
    in quote currency; [owned] is all the account has. *)
From Verif Require Import Base Fees ListSum Codec Critbit CritbitSlab Market Matching Slots MatchSteps Ledger MatchSpec Core Instr InstrProofs Store Process StoreProofs World WorldSpec LifeSpec AbsentSpec StatementSpec OpenSpec ExposureSpec ExposureProofs WorldExample ExampleAuth ExampleAbsent ExampleStatement ExampleExposure.

(** Coin bought, coin sold and quote currency spent, fees included, together with what is still open at the end, never exceed what
    was open at the start and what the orders placed since then asked for, whoever signs whatever. *)
Theorem C74_trades_stay_within_the_orders : forall e, env_ok e -> forall k x s E B T s' m A L m' A' L', history e s -> dealings e k x s E B T s' -> seen e s k m A L -> usable m -> seen e s' k m' A' L' ->
  zsum bought (events_of x E) + open_coin m x (a_bids A') <= open_coin m x (a_bids A) + zsum (to_buy m) B /\
  zsum sold (events_of x E) + open_coin m x (a_asks A') <= open_coin m x (a_asks A) + zsum (to_sell m) B /\
  zsum spent (events_of x E) + open_cost m x (a_bids A') <= open_cost m x (a_bids A) + zsum to_spend B.
Proof. exact exposure. Qed.
Print Assumptions C74_trades_stay_within_the_orders.
(** The account, counting what was put in and paid out, gains no more coin than its bids asked for, loses no more coin than its
    asks offered, and loses no more quote currency than its bids offered. *)
Theorem C74_gains_and_losses_stay_within_the_orders : forall e, env_ok e -> forall k x s E B T s' m A L cn pc m' A' L' cn' pc', history e s -> dealings e k x s E B T s' -> seen e s k m A L -> usable m -> m_coin_vault m <> m_pc_vault m -> seen e s' k m' A' L' ->
  owned x A L cn pc -> owned x A' L' cn' pc' ->
  (zsum coin_out T + cn') - (zsum coin_in T + cn) <= open_coin m x (a_bids A) + zsum (to_buy m) B /\
  (zsum coin_in T + cn) - (zsum coin_out T + cn') <= open_coin m x (a_asks A) + zsum (to_sell m) B /\
  (zsum pc_in T + pc) - (zsum pc_out T + pc') <= open_cost m x (a_bids A) + zsum to_spend B.
Proof. exact gain_and_loss. Qed.
Print Assumptions C74_gains_and_losses_stay_within_the_orders.
(** Every stretch of a history is such a record for every account. *)
Theorem C74_there_is_a_record : forall e, env_ok e -> forall k x s E s', stretch e k s E s' -> history e s -> forall m A L, seen e s k m A L -> usable m -> exists B T, dealings e k x s E B T s'.
Proof. exact dealings_exist. Qed.
Print Assumptions C74_there_is_a_record.

(** Bob's whole account: one bid for 50 coins and 1000000; he gained 40 for 200080. *)
Example C74_case : env_ok ex_env /\ history ex_env w3 /\ dealings ex_env 10 111 w3 st_E ex_B st_T st9 /\ seen ex_env w3 10 w3_m w3_A w3_L /\ usable w3_m /\ m_coin_vault w3_m <> m_pc_vault w3_m /\ seen ex_env st9 10 st9_m st9_A st9_L /\
  owned 111 w3_A w3_L 0 0 /\ owned 111 st9_A st9_L 0 0 /\
  (zsum coin_out st_T, zsum coin_in st_T, zsum (to_buy w3_m) ex_B) = (40, 0, 50) /\ (zsum pc_in st_T, zsum pc_out st_T, zsum to_spend ex_B) = (1000000, 799920, 1000000) /\ open_cost w3_m 111 (a_bids w3_A) = 0.
Proof.
  split; [exact ex_env_ok|]. split; [exact w3_h|]. split; [exact ex_deal|]. split; [exact w3_seen|]. split; [exact w3_usable|]. split; [vm_compute; discriminate|]. split; [exact st9_seen|].
  split; [right; split; [intros oo I; destruct I as [I|[]]; discriminate|auto]|]. split; [right; split; [intros oo I; destruct I as [I|[]]; discriminate|auto]|]. split; [vm_compute; reflexivity|]. split; vm_compute; reflexivity.
Qed.
(** Just after the bid one lot rests: what Bob bought and what he may still buy is exactly what he asked for. *)
Example C74_case_open : dealings ex_env 10 111 w3 ([] ++ ab_E) ex_B4 ([] ++ [line4]) w4 /\ seen ex_env w4 10 ab4_m ab4_A ab4_L /\ zsum bought (events_of 111 ([] ++ ab_E)) = 40 /\ open_coin w3_m 111 (a_bids ab4_A) = 10 /\ zsum (to_buy w3_m) ex_B4 = 50.
Proof. split; [exact ex_deal4|]. split; [exact ab4_seen|]. split; [vm_compute; reflexivity|]. split; vm_compute; reflexivity. Qed.
(** Alice, who signs nothing, sells 40 of the 60 coins her resting asks offered. *)
Example C74_case_alice : dealings ex_env 10 101 w3 ([] ++ ab_E) ([] ++ asked 10 101 ix4 (ms_order 111 113 110)) alice_T w4 /\ zsum sold (events_of 101 ([] ++ ab_E)) = 40 /\ open_coin w3_m 101 (a_asks w3_A) = 60 /\ open_coin w3_m 101 (a_asks ab4_A) = 20 /\ asked 10 101 ix4 (ms_order 111 113 110) = [].
Proof. split; [exact alice_deal|]. split; [vm_compute; reflexivity|]. split; [vm_compute; reflexivity|]. split; vm_compute; reflexivity. Qed.
