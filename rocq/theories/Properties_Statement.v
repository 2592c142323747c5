(** The account of a trader as a bank statement (C66).  [statement e k x s E T s']: any transactions, with any bytes and
    accounts, lead from [s] to [s'], [E] are the events queued on market [k] meanwhile, and [T] has a line of
    account [x] for each transaction that went through: what its orders put into the vaults of the market and
    what its settlements paid out.  [owned x A L coin pc]: all the account has, locked or not, counting the trades
    whose events are still queued, and nothing while there is no such account (StatementSpec.v). *)
From Verif Require Import Base Fees ListSum Codec Critbit CritbitSlab Market Matching Slots MatchSteps Ledger MatchSpec Core Instr InstrProofs Store Process StoreProofs World WorldSpec LifeSpec LifeMain AbsentSpec StatementSpec StatementProofs WorldExample ExampleAuth ExampleAbsent ExampleStatement.

(** What an account has changes by what its orders put in, what it was paid out, and what its trades brought and took
    according to their events, fee included; and by nothing else, whoever signs whatever. *)
Theorem C66_the_statement_balances : forall e, env_ok e -> forall k x s E T s' m A L cn pc m' A' L' cn' pc', history e s -> statement e k x s E T s' -> seen e s k m A L -> usable m -> m_coin_vault m <> m_pc_vault m -> seen e s' k m' A' L' ->
  owned x A L cn pc -> owned x A' L' cn' pc' ->
  cn' = cn + zsum coin_in T - zsum coin_out T + zsum coin_trade (events_of x E) /\ pc' = pc + zsum pc_in T - zsum pc_out T + zsum pc_trade (events_of x E).
Proof. exact statement_balances. Qed.
Print Assumptions C66_the_statement_balances.
(** From before it is opened until after it is closed: it was paid all that was put in and all that its trades brought. *)
Theorem C66_the_life_of_an_account : forall e, env_ok e -> forall k x s E T s' m A L m' A' L', history e s -> statement e k x s E T s' -> seen e s k m A L -> usable m -> m_coin_vault m <> m_pc_vault m -> seen e s' k m' A' L' ->
  (forall oo, ~ In (x, oo) L) -> (forall oo, ~ In (x, oo) L') ->
  zsum coin_out T = zsum coin_in T + zsum coin_trade (events_of x E) /\ zsum pc_out T = zsum pc_in T + zsum pc_trade (events_of x E).
Proof. exact statement_closed. Qed.
Print Assumptions C66_the_life_of_an_account.
(** Every stretch of a history has a statement for every account. *)
Theorem C66_there_is_a_statement : forall e, env_ok e -> forall k x s E s', stretch e k s E s' -> history e s -> forall m A L, seen e s k m A L -> usable m -> exists T, statement e k x s E T s'.
Proof. exact statement_exists. Qed.
Print Assumptions C66_there_is_a_statement.

(** Bob puts in 1000000, buys 4 lots for 200080 with the fee, takes back the rest of his order, and is paid 40 and 799920. *)
Example C66_case : env_ok ex_env /\ history ex_env w3 /\ statement ex_env 10 111 w3 st_E st_T st9 /\ seen ex_env w3 10 w3_m w3_A w3_L /\ usable w3_m /\ m_coin_vault w3_m <> m_pc_vault w3_m /\ seen ex_env st9 10 st9_m st9_A st9_L /\
  (forall oo, ~ In (111, oo) w3_L) /\ (forall oo, ~ In (111, oo) st9_L) /\
  st_T = [mkAmounts 0 1000000 0 0; nothing; nothing; nothing; mkAmounts 0 0 40 799920; nothing] /\ zsum coin_trade (events_of 111 st_E) = 40 /\ zsum pc_trade (events_of 111 st_E) = - 200080.
Proof.
  split; [exact ex_env_ok|]. split; [exact w3_h|]. split; [exact st9_line|]. split; [exact w3_seen|]. split; [exact w3_usable|]. split; [vm_compute; discriminate|]. split; [exact st9_seen|].
  split; [intros oo I; destruct I as [I|[]]; discriminate|]. split; [intros oo I; destruct I as [I|[]]; discriminate|]. split; [vm_compute; reflexivity|]. split; vm_compute; reflexivity.
Qed.
(** Halfway, with one lot still bid for: Alice's account of the same time. *)
Example C66_alice : owned 101 ab4_A ab4_L 20 200000 /\ owned 101 w3_A w3_L 60 0 /\ zsum coin_trade (events_of 101 ab_E) = - 40 /\ zsum pc_trade (events_of 101 ab_E) = 200000.
Proof.
  split; [left; exists (snd (nth 0 ab4_L (0, oo_zero))); vm_compute; auto|]. split; [left; exists alice3; vm_compute; auto|]. split; vm_compute; reflexivity.
Qed.
