(** C57: markets do not touch each other. *)
From Verif Require Import Base Fees ListSum Queue Codec Critbit CritbitSlab Market Slots Matching MatchSteps Ledger MatchSpec Core Instr InstrProofs Store Process StoreProofs World WorldInv WorldSpec WorldAuth WorldRights WorldIsolate WorldExample.

(** C57: at any time, guard or not, an instruction concerns one market at most: the record, books, queues and open-orders
    accounts of every other market are exactly what they were. *)
Theorem C57_one_market_at_a_time : forall e, env_ok e -> forall s c i ms s', anytime e s -> process e c s i ms = Ok s' ->
  exists k, forall k2 m2 y, k2 <> k -> dexd e s k2 = Some (DMarket m2) -> belongs e s k2 m2 y -> dexd e s' y = dexd e s y.
Proof. exact isolated. Qed.
Print Assumptions C57_one_market_at_a_time.
(** C57: and no other market's vault loses anything. *)
Theorem C57_no_other_vault_loses : forall e, env_ok e -> forall s c i ms s', history e s -> legal e ms -> process e c s i ms = Ok s' ->
  exists k, forall k2 m2, k2 <> k -> dexd e s k2 = Some (DMarket m2) ->
    (forall y, belongs e s k2 m2 y -> dexd e s' y = dexd e s y) /\
    (forall y, y = m_coin_vault m2 \/ y = m_pc_vault m2 -> exists t t', token_at s y = Some t /\ token_at s' y = Some t' /\ t_amount t <= t_amount t').
Proof. exact isolated_vaults. Qed.
Print Assumptions C57_no_other_vault_loses.

(** An order on market 30 while market 10 has an order, open accounts and money in its vaults. *)
Example C57_case : exists e s c i ms s' k m, env_ok e /\ history e s /\ legal e ms /\ process e c s i ms = Ok s' /\ s' <> s /\ dexd e s k = Some (DMarket m) /\
  (exists sl, dexd e s (m_bids m) = Some (DSlab Bid sl) /\ length (book sl) = 1%nat) /\ (exists x oo, belongs e s k m x /\ dexd e s x = Some (DOO oo)) /\
  (exists t, token_at s (m_coin_vault m) = Some t /\ 0 < t_amount t) /\ exists k2 m2, k2 <> k /\ dexd e s' k2 = Some (DMarket m2) /\ dexd e s' k2 <> dexd e s k2.
Proof.
  exists ex_env, w10, ex_clock, ix11, ms10, w11, 10. eexists. split; [exact ex_env_ok|]. split; [exact w10_h|]. split; [apply legal_ok; vm_compute; reflexivity|].
  split; [vm_compute; reflexivity|]. split; [vm_compute; discriminate|]. split; [vm_compute; reflexivity|].
  split; [eexists; split; [vm_compute; reflexivity|vm_compute; reflexivity]|].
  split; [exists 101; eexists; split; [do 5 right; eexists; split; [vm_compute; reflexivity|vm_compute; reflexivity]|vm_compute; reflexivity]|].
  split; [eexists; split; [vm_compute; reflexivity|vm_compute; reflexivity]|]. exists 30. eexists. split; [discriminate|]. split; [vm_compute; reflexivity|vm_compute; discriminate].
Qed.

(** Not true: the vaults of other markets stay as they are.  SettleFunds pays into any token account, another
    market's vault included; what is paid there belongs to nobody. *)
Definition ms_astray : list meta := [k_ 30; k_ 131; s_ 140] ++ map k_ [35; 36; 15; 143; 901; spl_id].
Definition w_astray : store := Eval vm_compute in match process ex_env ex_clock w13 ISettleFunds ms_astray with Ok s => s | _ => [] end.
Theorem C57_other_vaults_unchanged_refuted : exists e s c ms s' k m v t t', env_ok e /\ history e s /\ legal e ms /\ process e c s ISettleFunds ms = Ok s' /\
  key_at ms 0 <> Some k /\ dexd e s k = Some (DMarket m) /\ v = m_coin_vault m /\ token_at s v = Some t /\ token_at s' v = Some t' /\ t_amount t < t_amount t' /\
  dexd e s' k = Some (DMarket m).
Proof.
  exists ex_env, w13, ex_clock, ms_astray, w_astray, 10. do 4 eexists. split; [exact ex_env_ok|]. split; [exact w13_h|]. split; [apply legal_ok; vm_compute; reflexivity|].
  split; [vm_compute; reflexivity|]. split; [vm_compute; congruence|]. split; [vm_compute; reflexivity|]. split; [vm_compute; reflexivity|]. split; [vm_compute; reflexivity|]. split; [vm_compute; reflexivity|].
  split; [vm_compute; reflexivity|]. vm_compute. reflexivity.
Qed.
Print Assumptions C57_other_vaults_unchanged_refuted.
