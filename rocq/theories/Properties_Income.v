(** The books of the exchange (C71).  [books e k s E T s']: any transactions, with any bytes and accounts, lead from [s] to
    [s'], except that nobody has market [k] pay into its own vaults; [E] are the events queued on the market meanwhile,
    and [T] has a line for each transaction that went through, read off the vaults: what send-takes paid in and
    were paid, what was swept, and what referrers were paid.  [income E T]: the quote currency traders paid beyond
    what traders received (IncomeSpec.v). *)
From Verif Require Import Base Fees ListSum Codec Critbit CritbitSlab Market Matching Slots MatchSteps Ledger MatchSpec Core Instr InstrProofs Store Process StoreProofs World WorldSpec LifeSpec AbsentSpec StatementSpec IncomeSpec IncomeProofs WorldExample ExampleAuth ExampleAbsent ExampleIncome.

(** The exchange keeps no coin: traders receive just the coin that traders pay.  Its quote income is what it then holds
    as fees and for referrers, and what was swept and paid to referrers: to the last unit. *)
Theorem C71_the_books_balance : forall e, env_ok e -> forall k s E T s' m A L m' A' L', history e s -> books e k s E T s' -> seen e s k m A L -> usable m -> m_coin_vault m <> m_pc_vault m -> seen e s' k m' A' L' ->
  zsum coin_swap T = zsum coin_trade E /\ m_pc_fees m' + m_rebates m' + zsum swept T + zsum referred T = m_pc_fees m + m_rebates m + income E T.
Proof. exact books_balance. Qed.
Print Assumptions C71_the_books_balance.
(** So what is swept and paid to referrers is never more than was held and earned: never the money of a trader. *)
Theorem C71_paid_from_income : forall e, env_ok e -> forall k s E T s' m A L m' A' L', history e s -> books e k s E T s' -> seen e s k m A L -> usable m -> m_coin_vault m <> m_pc_vault m -> seen e s' k m' A' L' ->
  zsum swept T + zsum referred T <= m_pc_fees m + m_rebates m + income E T.
Proof. exact paid_from_income. Qed.
Print Assumptions C71_paid_from_income.
(** And the exchange never earns less than nothing: whatever is traded, traders together do not take out more than
    traders put in. *)
Theorem C71_never_at_a_loss : forall e, env_ok e -> forall k s E T s' m A L, history e s -> books e k s E T s' -> seen e s k m A L -> usable m -> m_coin_vault m <> m_pc_vault m -> 0 <= income E T.
Proof. exact never_at_a_loss. Qed.
Print Assumptions C71_never_at_a_loss.
(** Every further transaction goes into the books, whoever sends it and whether it works or not. *)
Theorem C71_the_books_go_on : forall e, env_ok e -> forall k s E T s1 c b ms m A L, history e s -> books e k s E T s1 -> seen e s k m A L -> usable m -> m_coin_vault m <> m_pc_vault m ->
  no_overflow e s1 -> sized s1 -> is_bytes b -> legal e ms -> (forall i, unpack b = Some i -> pays_others e k s1 i ms) -> exists E1 T1, books e k s (E ++ E1) (T ++ T1) (transact e c s1 b ms).
Proof. exact books_go_on. Qed.
Print Assumptions C71_the_books_go_on.

(** Bob buys 40 coins for 200000 and a fee of 80; later 16 of it goes to a referrer; somebody without an account buys 10 coins
    for 60000 and a fee of 24; then 84 is swept, and 4 are left. *)
Example C71_case : env_ok ex_env /\ history ex_env w3 /\ books ex_env 10 w3 in_E in_T in8 /\ seen ex_env w3 10 w3_m w3_A w3_L /\ usable w3_m /\ m_coin_vault w3_m <> m_pc_vault w3_m /\ seen ex_env in8 10 in8_m in8_A in8_L /\
  in_T = [no_dealing; no_dealing; mkDealing 0 0 0 16; mkDealing (-10) 60024 0 0; mkDealing 0 0 84 0] /\ zsum pc_trade in_E = 60000 - 80 /\ zsum coin_trade in_E = -10 /\ income in_E in_T = 104 /\
  m_pc_fees w3_m = 0 /\ m_rebates w3_m = 0 /\ m_pc_fees in8_m = 0 /\ m_rebates in8_m = 4.
Proof.
  split; [exact ex_env_ok|]. split; [exact w3_h|]. split; [exact in8_books|]. split; [exact w3_seen|]. split; [exact w3_usable|]. split; [vm_compute; discriminate|]. split; [exact in8_seen|]. repeat split; vm_compute; reflexivity.
Qed.
(** Another sweep could come next. *)
Example C71_case_on : no_overflow ex_env in8 /\ sized in8 /\ is_bytes (pack ISweepFees) /\ legal ex_env ms_in_sweep /\ (forall i, unpack (pack ISweepFees) = Some i -> pays_others ex_env 10 in8 i ms_in_sweep).
Proof.
  split; [apply guard_ok; vm_compute; reflexivity|]. split; [apply sized_ok; vm_compute; reflexivity|]. split; [apply bytes_ok; vm_compute; reflexivity|]. split; [apply legal_ok; vm_compute; reflexivity|].
  intros i U. vm_compute in U. injection U as <-. apply others_ok. vm_compute. reflexivity.
Qed.
(** Without the exception it is false: if the sweeper names the vault itself, the fees vanish from the books. *)
Definition in_vanish : list meta := [k_ 10; k_ 16; s_ fee_sweeper; k_ 16; k_ 900; k_ spl_id].
Example C71_own_vault : exists s' m' A' L', process ex_env ex_clock in7 ISweepFees in_vanish = Ok s' /\ seen ex_env s' 10 m' A' L' /\
  swept (line ex_env 10 in7 s' ISweepFees in_vanish) = 0 /\ m_pc_fees in7_m = 84 /\ m_pc_fees m' = 0 /\ m_rebates m' = m_rebates in7_m.
Proof.
  set (s' := transact ex_env ex_clock in7 (pack ISweepFees) in_vanish). exists s', (fst (fst (of_look s' 10))), (snd (fst (of_look s' 10))), (snd (of_look s' 10)). split; [vm_compute; reflexivity|].
  split; [apply look_seen; vm_compute; reflexivity|]. vm_compute. repeat split; reflexivity.
Qed.
