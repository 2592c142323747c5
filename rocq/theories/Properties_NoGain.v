(** Trading back and forth against standing orders never pays (C77).  [dealt e k away s E T s']: any transactions, with any
    bytes and accounts and in any order, lead from [s] to [s'], except that the wallets [away] sign none of them and
    nobody has market [k] pay into its own vaults.  [E] are the events queued meanwhile and [T] has a line for
    each transaction that went through (IncomeSpec.v).  [xs] are accounts of wallets that are away; [coin_gain] and [pc_gain] are
    what all others gained by trading, taken together, whether they trade through accounts or without one.
    A price is [fair] if the orders of [xs] buy at it or below and sell at it or above (NoGainSpec.v). *)
From Verif Require Import Base Fees ListSum Codec Critbit CritbitSlab Market Matching Slots MatchSteps Ledger MatchSpec Core Instr InstrProofs Store Process StoreProofs World WorldSpec LifeSpec AbsentSpec StatementSpec IncomeSpec NoGainSpec NoGainProofs WorldExample ExampleAuth ExampleAbsent ExampleIncome ExampleNoGain.

(** At a fair price, what all others gained is worth nothing or less, by at least the income of the exchange. *)
Theorem C77_no_gain_at_a_fair_price : forall e, env_ok e -> forall k away s E T s' m A L m' A' L' xs, history e s -> dealt e k away s E T s' -> seen e s k m A L -> usable m -> m_coin_vault m <> m_pc_vault m -> seen e s' k m' A' L' -> standing away L xs ->
  forall p, fair A xs p -> m_pc_lot m * p * coin_gain xs E T + m_coin_lot m * pc_gain xs E T <= - (m_coin_lot m * income E T).
Proof. exact no_gain. Qed.
Print Assumptions C77_no_gain_at_a_fair_price.
(** So without looking at prices: those who end with no less coin have paid the fees at least, and those who end with no less
    quote currency have no more coin. *)
Theorem C77_nothing_for_nothing : forall e, env_ok e -> forall k away s E T s' m A L m' A' L' xs, history e s -> dealt e k away s E T s' -> seen e s k m A L -> usable m -> m_coin_vault m <> m_pc_vault m -> seen e s' k m' A' L' -> standing away L xs ->
  0 <= income E T /\ (0 <= coin_gain xs E T -> pc_gain xs E T <= - income E T) /\ (0 <= pc_gain xs E T -> coin_gain xs E T <= 0).
Proof. exact nothing_for_nothing. Qed.
Print Assumptions C77_nothing_for_nothing.

(** Somebody buys a lot of absent Alice at 50 and sells it to her at 45: 5000 and the fees are gone. *)
Example C77_case : env_ok ex_env /\ history ex_env ng0 /\ dealt ex_env 10 (fun w => w = 100) ng0 ng_E ng_T ng2 /\ seen ex_env ng0 10 ng0_m ng0_A ng0_L /\ usable ng0_m /\ m_coin_vault ng0_m <> m_pc_vault ng0_m /\ seen ex_env ng2 10 ng2_m ng2_A ng2_L /\
  standing (fun w => w = 100) ng0_L [101] /\ fair ng0_A [101] 45 /\ fair ng0_A [101] 50 /\ length (a_bids ng0_A) = 1%nat /\ length (a_asks ng0_A) = 2%nat /\
  coin_gain [101] ng_E ng_T = 0 /\ pc_gain [101] ng_E ng_T = -5038 /\ income ng_E ng_T = 38.
Proof.
  split; [exact ex_env_ok|]. split; [exact ng0_h|]. split; [exact ng2_dealt|]. split; [exact ng0_seen|]. split; [vm_compute; repeat split; discriminate|]. split; [vm_compute; discriminate|]. split; [exact ng2_seen|].
  split; [intros x [<-|[]]; exists (snd (nth 0 (filter (fun a => fst a =? 101) ng0_L) (0, oo_zero))); split; [vm_compute; auto|vm_compute; reflexivity]|].
  assert (F : forall p, 45 <= p <= 50 -> fair ng0_A [101] p).
  { intros p R. split; intros l I _; vm_compute in I; decompose [or] I; subst; try contradiction; match goal with |- context [l_price ?x] => let v := eval vm_compute in (l_price x) in change (l_price x) with v end; lia. }
  split; [apply F; lia|]. split; [apply F; lia|]. vm_compute. repeat split; reflexivity.
Qed.
(** The price has to be fair: whoever thinks a lot is worth 60 gains by buying one of Alice at 50. *)
Example C77_unfair_price : ~ fair ng0_A [101] 60 /\ m_pc_lot ng0_m * 60 * coin_gain [101] ng_bought [ng_l1] + m_coin_lot ng0_m * pc_gain [101] ng_bought [ng_l1] > 0.
Proof.
  split; [|vm_compute; reflexivity]. intros [_ F]. specialize (F (nth 0 (a_asks ng0_A) (mkLeaf 0 0 0 0 0 0)) ltac:(vm_compute; auto) ltac:(vm_compute; auto)). vm_compute in F. apply F. reflexivity.
Qed.
