(** Opening a market does what was asked (C52), and no order is placed after its time limit (C51).  [market_opened],
    [orders_in] and [in_time] are defined in OpenSpec.v. *)
From Verif Require Import Base Fees ListSum Codec Critbit CritbitSlab Market Slots Matching MatchSteps Ledger MatchSpec Core Instr InstrProofs Store Process StoreProofs World WorldInv WorldSpec OpenSpec WorldOpen WorldExample.

(** C51 *)
Theorem C51_expired_orders_are_refused : forall e c s i ms s', wf_instr i -> process e c s i ms = Ok s' -> forall ix, In ix (orders_in i) -> in_time (c_now c) ix.
Proof. exact expired_refused. Qed.
Print Assumptions C51_expired_orders_are_refused.
Theorem C51_expired_orders_change_nothing : forall e c s i ms ix, wf_instr i -> In ix (orders_in i) -> ~ in_time (c_now c) ix -> transact e c s (pack i) ms = s.
Proof. exact expired_no_effect. Qed.
Print Assumptions C51_expired_orders_change_nothing.
(** Nothing else depends on the time. *)
Theorem C51_time_decides_nothing_else : forall e c1 c2 s i ms, c_exempt c1 = c_exempt c2 -> (forall ix, In ix (orders_in i) -> in_time (c_now c1) ix /\ in_time (c_now c2) ix) ->
  process e c1 s i ms = process e c2 s i ms.
Proof. exact clock_only_for_expiry. Qed.
Print Assumptions C51_time_decides_nothing_else.

(** C52 *)
Theorem C52_a_new_market_is_as_asked : forall e, env_ok e -> forall c s ix ms s', history e s -> process e c s (IInitMarket ix) ms = Ok s' -> exists m, market_opened e s s' ix ms m.
Proof. exact open_effect. Qed.
Print Assumptions C52_a_new_market_is_as_asked.
(** The signatures do not matter: whoever pays for the accounts may open the market. *)
Theorem C52_anyone_can_open_a_market : forall e c s ix ms k rqa eqa ba aa cv pv cm pm rent p auths,
  map mk ms = k :: rqa :: eqa :: ba :: aa :: cv :: pv :: cm :: pm :: rent :: auths -> (length auths <= 3)%nat ->
  NoDup [k; rqa; eqa; ba; aa] -> blank_of e s 388 k -> a_len (sget s k) = match auths with [] => 388 | _ => 1476 end ->
  blank_of e s 124 rqa -> blank_of e s 11308 eqa -> blank_of e s 14524 ba -> blank_of e s 14524 aa ->
  e_pda e (ii_nonce ix) k = Some p -> usable_vault s p cv cm -> usable_vault s p pv pm -> is_mint s cm -> is_mint s pm ->
  (forall x, In x [rqa; eqa; ba; aa; cv; pv; cm; pm] -> c_exempt c (a_lamports (sget s x)) (a_len (sget s x)) = true) ->
  exists s', process e c s (IInitMarket ix) ms = Ok s'.
Proof. exact open_possible. Qed.
Print Assumptions C52_anyone_can_open_a_market.
(** Refuted: that every market that opens can be used.  Lot sizes of zero are accepted, and so is one account for both books. *)
Theorem C52_opened_markets_are_usable_refuted : exists e c s ix1 ix2 ms1 ms2 s1 s2 m1 m2, env_ok e /\ history e s /\
  wf_instr (IInitMarket ix1) /\ process e c s (IInitMarket ix1) ms1 = Ok s1 /\ dexd e s1 10 = Some (DMarket m1) /\ m_coin_lot m1 = 0 /\ m_pc_lot m1 = 0 /\
  wf_instr (IInitMarket ix2) /\ process e c s (IInitMarket ix2) ms2 = Ok s2 /\ dexd e s2 10 = Some (DMarket m2) /\ m_bids m2 = m_asks m2.
Proof.
  destruct (succeeds_ok (process ex_env ex_clock w0 (IInitMarket (mkInitIx 0 0 0 3 100)) ms1)) as (s1 & E1); [vm_compute; reflexivity|].
  destruct (succeeds_ok (process ex_env ex_clock w0 (IInitMarket (mkInitIx 10 1000 0 3 100)) (map k_ [10; 11; 12; 13; 13; 15; 16; 17; 18; 0]))) as (s2 & E2); [vm_compute; reflexivity|].
  exists ex_env, ex_clock, w0, (mkInitIx 0 0 0 3 100), (mkInitIx 10 1000 0 3 100), ms1, (map k_ [10; 11; 12; 13; 13; 15; 16; 17; 18; 0]), s1, s2.
  destruct (open_effect ex_env ex_env_ok _ _ _ _ _ w0_h E1) as (m1 & O1). destruct (open_effect ex_env ex_env_ok _ _ _ _ _ w0_h E2) as (m2 & O2).
  exists m1, m2. pose proof (op_market _ _ _ _ _ _ O1) as X1. pose proof (op_market _ _ _ _ _ _ O2) as X2. destruct (op_asked _ _ _ _ _ _ O1) as [a1 a2 a3]. destruct (op_asked _ _ _ _ _ _ O2) as [b1 b2 b3].
  assert (NE : forall l l' n, map (key_at l) [0; 1; 2; 3; 4; 5; 6; 7; 8]%nat = map Some l' -> nth n (map (key_at l) [0; 1; 2; 3; 4; 5; 6; 7; 8]%nat) None = nth n (map Some l') None) by (intros ? ? n ->; reflexivity).
  pose proof (NE _ _ 0%nat a1) as a10. pose proof (NE _ _ 0%nat b1) as b10. pose proof (NE _ _ 3%nat b1) as b13. pose proof (NE _ _ 4%nat b1) as b14.
  change (Some 10 = Some (m_own m1)) in a10. change (Some 10 = Some (m_own m2)) in b10. change (Some 13 = Some (m_bids m2)) in b13. change (Some 13 = Some (m_asks m2)) in b14.
  replace (m_own m1) with 10 in X1 by congruence. replace (m_own m2) with 10 in X2 by congruence.
  split; [exact ex_env_ok|]. split; [exact w0_h|]. split; [vm_compute; repeat split; congruence|]. split; [exact E1|]. split; [exact X1|]. split; [exact a2|]. split; [exact a3|].
  split; [vm_compute; repeat split; congruence|]. split; [exact E2|]. split; [exact X2|congruence].
Qed.
Print Assumptions C52_opened_markets_are_usable_refuted.

(** ** The hypotheses are met *)
(** Bob's order, valid until second 1000 exactly, is placed at 1000; valid until 999, it is not. *)
Example C51_case : let ix t := INewOrderV3 (mkOrderIx Bid 55 5 1000000 DecrementTake Limit 23 65535 t) in
  history ex_env w3 /\ c_now ex_clock = 1000 /\ wf_instr (ix 1000) /\ wf_instr (ix 999) /\
  (exists s', process ex_env ex_clock w3 (ix 1000) (ms_order 111 113 110) = Ok s' /\ s' <> w3) /\
  process ex_env ex_clock w3 (ix 999) (ms_order 111 113 110) = Err EMaxTimestamp.
Proof.
  cbv zeta. split; [exact w3_h|]. split; [reflexivity|]. split; [vm_compute; repeat split; congruence|]. split; [vm_compute; repeat split; congruence|]. split; [|vm_compute; reflexivity].
  eexists. split; [vm_compute; reflexivity|]. intros C. apply (f_equal (fun s => dexd ex_env s 111)) in C. vm_compute in C. discriminate C.
Qed.
(** A market with three authorities. *)
Example C52_case : history ex_env w7 /\ (exists s', process ex_env ex_clock w7 ix8 ms8 = Ok s') /\ key_at ms8 12 = Some 302 /\
  blank_of ex_env w7 388 30 /\ blank_of ex_env w7 14524 33 /\ usable_vault w7 901 35 17 /\ is_mint w7 17 /\ e_pda ex_env 3 30 = Some 901.
Proof.
  split; [exact w7_h|]. split; [apply succeeds_ok; vm_compute; reflexivity|]. split; [reflexivity|].
  split; [vm_compute; repeat split; congruence|]. split; [vm_compute; repeat split; congruence|]. split; [eexists; vm_compute; repeat split; reflexivity|]. split; [vm_compute; repeat split|reflexivity].
Qed.
