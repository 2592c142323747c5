(** C87.  [counted e G n s]: a history of [n] transactions, successful or not, each starting from a state satisfying [G],
    leads to [s].  [capped e K s]: of neither token of a usable market [k] do all token accounts of [s] together hold more
    than [K k], and that, times the places of the event queue and once more, is below 2^64.  [brought i]: how many orders
    instruction [i] can bring (CountSpec.v). *)
From Verif Require Import Base Fees ListSum Queue Codec Critbit CritbitSlab Market Slots MatchSteps Ledger MatchSpec Core Instr InstrProofs Store Process StoreProofs World WorldSpec WorldExample WorldMain TotalSpec ScarceSpec ScarceProofs Properties_Bundle CountSpec CountProofs.

(** An instruction moves an order counter by at most the number of orders it brings. *)
Theorem C87_counter_step : forall e c s i ms s' y cnt' q', process e c s i ms = Ok s' -> dexd e s' y = Some (DReqQ (cnt', q')) ->
  0 <= q' <= brought i \/ exists cnt q, dexd e s y = Some (DReqQ (cnt, q)) /\ (0 <= q -> 0 <= q' <= q + brought i).
Proof. exact counter_step. Qed.
Print Assumptions C87_counter_step.
(** So it is at most eight times the number of transactions there have been, with no condition on the history. *)
Theorem C87_counter_bound : forall e G n s, counted e G n s -> forall y cnt q, dexd e s y = Some (DReqQ (cnt, q)) -> 0 <= q <= 8 * Z.of_nat n.
Proof. exact counter_bound. Qed.
Print Assumptions C87_counter_bound.
(** Everything proved of guarded histories therefore holds after fewer than 2^61 - 2 transactions if the supply of the
    market's tokens is limited; no condition on the program's own accounts beyond the size of the event queue is left. *)
Theorem C87_limited_supply_alone : forall e, env_ok e -> forall K n s, counted e (capped e K) n s -> 8 * Z.of_nat n + 16 < B64 -> history e s /\ (capped e K s -> no_overflow e s).
Proof. exact supply_alone. Qed.
Print Assumptions C87_limited_supply_alone.

Lemma scarce_capped e K s : scarce e K s -> capped e K s.
Proof. intros S k m E P. destruct (S k m E P) as (A & B & _). split; assumption. Qed.
Ltac cnext H s b ms := match goal with |- counted _ _ _ ?w => replace w with (transact ex_env ex_clock s b ms) by (vm_compute; reflexivity) end;
  apply cn_tx; [exact H|apply scarce_capped, scarce_ok|apply sized_ok|apply bytes_ok|apply legal_ok]; vm_compute; reflexivity.
(** A market is opened, Alice posts two orders, Bob takes one: four transactions, and the counter stands at three. *)
Example C87_case : counted ex_env (capped ex_env sc_K) 4 w4 /\ capped ex_env sc_K w4 /\ 8 * Z.of_nat 4 + 16 < B64 /\
  exists k m y, dexd ex_env w4 k = Some (DMarket m) /\ y = m_req_q m /\ dexd ex_env w4 y = Some (DReqQ (0, 3)).
Proof.
  split; [|split; [apply scarce_capped, scarce_ok; vm_compute; reflexivity|split; [reflexivity|]]].
  - assert (W0 : counted ex_env (capped ex_env sc_K) 0 w0) by (apply cn_start, genesis_ok; vm_compute; reflexivity).
    assert (W1 : counted ex_env (capped ex_env sc_K) 1 w1) by (cnext W0 w0 (pack ix1) ms1).
    assert (W2 : counted ex_env (capped ex_env sc_K) 2 w2) by (cnext W1 w1 (pack ix2) (ms_order 101 102 100)).
    assert (W3 : counted ex_env (capped ex_env sc_K) 3 w3) by (cnext W2 w2 (pack ix3) (ms_order 101 102 100)).
    cnext W3 w3 (pack ix4) (ms_order 111 113 110).
  - eexists 10, _, _. split; [vm_compute; reflexivity|]. split; [reflexivity|]. vm_compute. reflexivity.
Qed.
