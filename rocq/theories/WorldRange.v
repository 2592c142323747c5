(** Every balance and counter of a reachable market is an exact 64-bit number. *)
From Verif Require Import Base Fees ListSum Codec Critbit CritbitSlab Market Slots Matching MatchSteps MatchRefine MatchAsk MatchBid MatchRun Ledger MatchSpec Core CoreInv CoreConsume Instr Store Process StoreProofs World WorldInv WorldMain WorldSpec WorldFacts.

Section Range.
Variable e : env.
Hypothesis EO : env_ok e.
Variables (s : store) (k : Z) (m : market) (A : astate) (L : list (Z * open_orders)).
Hypotheses (H : history e s) (SN : seen e s k m A L) (P : usable m).

Lemma counters_in_range :
  (0 <= m_coin_deposits m < B64 /\ 0 <= m_pc_deposits m < B64 /\ 0 <= m_pc_fees m < B64 /\ 0 <= m_rebates m < B64) /\
  (forall x oo, In (x, oo) L -> 0 <= oo_coin_free oo <= oo_coin_total oo /\ oo_coin_total oo < B64 /\
     0 <= oo_pc_free oo <= oo_pc_total oo /\ oo_pc_total oo < B64 /\ 0 <= oo_rebates oo < B64) /\
  (forall sd l, In l (book_of A sd) -> 0 < l_qty l /\ 0 < l_price l /\ 0 < worth m sd l < B64).
Proof.
  pose proof (reachable_inv e EO s H) as WI. destruct (seen_state e s k m A L WI SN P) as (seq & o & MS).
  pose proof (ms_inv _ _ _ _ _ _ _ MS) as C. pose proof (ms_mkt _ _ _ _ _ _ _ MS) as E. destruct C. rewrite E in *.
  destruct ci_mkt as (M1 & M2 & M3). split; [split; [exact ci_coin_dep|]; split; [exact M1|]; split; [exact M2|exact M3]|]. split.
  - intros x oo I. destruct (ci_acct x oo I). unfold u64 in *. repeat (split; [assumption|]). assumption.
  - intros sd l I. destruct sd; cbn [book_of] in I; cbn [worth].
    + destruct (f_bids _ _ _ ci_fit l I) as (Q & PR & V & _). unfold bid_val in V. unfold usable in P. repeat split; try assumption; nia.
    + destruct (f_asks _ _ _ ci_fit l I) as (Q & PR & V & _). unfold ask_val in V. unfold usable in P. repeat split; try assumption; nia.
Qed.
(** Deposits always cover what rests in the books and all free balances. *)
Lemma deposits_cover :
  zsum (worth m Ask) (a_asks A) + total oo_coin_free L <= m_coin_deposits m /\ zsum (worth m Bid) (a_bids A) + total oo_pc_free L <= m_pc_deposits m.
Proof.
  pose proof (reachable_inv e EO s H) as WI. destruct (seen_state e s k m A L WI SN P) as (seq & o & MS).
  pose proof (ms_inv _ _ _ _ _ _ _ MS) as C. pose proof (ms_mkt _ _ _ _ _ _ _ MS) as E. destruct C. rewrite E in *.
  pose proof (coin_deposits_ge _ _ _ _ _ ci_nodup ci_evs ci_acct ci_own ci_evown) as G1. pose proof (pc_deposits_ge _ _ _ _ _ ci_nodup ci_evs ci_acct ci_own ci_evown) as G2.
  rewrite ci_coin in G1. rewrite ci_pc in G2. split; assumption.
Qed.
End Range.
