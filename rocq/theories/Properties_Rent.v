(** What is opened has paid its rent, and lamports move only by closing (C56). *)
From Verif Require Import Base Fees ListSum Queue Codec Critbit CritbitSlab Market Slots Matching MatchSteps Ledger MatchSpec Core Instr InstrProofs Store Process StoreProofs World WorldInv WorldSpec WorldRights WorldRent WorldExample.

(** C56: whatever the instruction, an account that becomes an open-orders account has exactly the size of one and is rent exempt. *)
Theorem C56_accounts_pay_when_opened : forall e, env_ok e -> forall s c i ms s' x oo, anytime e s -> process e c s i ms = Ok s' -> dexd e s' x = Some (DOO oo) -> (forall o, dexd e s x <> Some (DOO o)) ->
  a_len (sget s x) = 3228 /\ c_exempt c (a_lamports (sget s x)) (a_len (sget s x)) = true.
Proof. exact opening_pays. Qed.
Print Assumptions C56_accounts_pay_when_opened.
(** The queues, books, vaults and mints of a new market (accounts 1 to 8 of the call) are rent exempt. *)
Theorem C56_markets_pay_when_opened : forall e s c ix ms s', process e c s (IInitMarket ix) ms = Ok s' ->
  forall n x, (1 <= n <= 8)%nat -> key_at ms n = Some x -> c_exempt c (a_lamports (sget s x)) (a_len (sget s x)) = true.
Proof. exact market_pays. Qed.
Print Assumptions C56_markets_pay_when_opened.
(** No instruction changes the size or the owner program of any account, and only CloseOpenOrders (C35) moves lamports. *)
Theorem C56_lamports_move_only_by_closing : forall e s c i ms s', process e c s i ms = Ok s' ->
  forall x, a_len (sget s' x) = a_len (sget s x) /\ a_prog (sget s' x) = a_prog (sget s x) /\ (i <> ICloseOO -> a_lamports (sget s' x) = a_lamports (sget s x)).
Proof. exact sizes_kept. Qed.
Print Assumptions C56_lamports_move_only_by_closing.
(** Refuted: that the market account itself has paid. *)
Definition poor_clock : clock := mkClock 1000 (fun lamports len => 5 <=? lamports).
Definition poor_w0 : store := Eval vm_compute in sput w0 10 (mkAccount 7 0 388 DZero).
Theorem C56_market_account_pays_refuted : exists e s c ix ms s' k m, env_ok e /\ history e s /\ wf_instr (IInitMarket ix) /\ process e c s (IInitMarket ix) ms = Ok s' /\ dexd e s' k = Some (DMarket m) /\
  c_exempt c (a_lamports (sget s' k)) (a_len (sget s' k)) = false.
Proof.
  destruct (succeeds_ok (process ex_env poor_clock poor_w0 ix1 ms1)) as (s' & E); [vm_compute; reflexivity|].
  assert (X : s' = match process ex_env poor_clock poor_w0 ix1 ms1 with Ok t => t | _ => [] end) by (rewrite E; reflexivity).
  exists ex_env, poor_w0, poor_clock, (mkInitIx 10 1000 0 3 100), ms1, s', 10. eexists.
  split; [exact ex_env_ok|]. split; [apply reach_start, genesis_ok; vm_compute; reflexivity|]. split; [vm_compute; repeat split; congruence|]. split; [exact E|]. rewrite X. split; [vm_compute; reflexivity|vm_compute; reflexivity].
Qed.
Print Assumptions C56_market_account_pays_refuted.

(** ** The hypotheses are met *)
(** Bob's first order opens account 111; with four lamports instead of five there it fails. *)
Example C56_case : anytime ex_env w3 /\ (exists s' oo, process ex_env poor_clock w3 ix4 (ms_order 111 113 110) = Ok s' /\ dexd ex_env s' 111 = Some (DOO oo) /\ dexd ex_env w3 111 = Some DZero) /\
  succeeds (process ex_env poor_clock (put_lamports w3 111 4) ix4 (ms_order 111 113 110)) = false /\
  succeeds (process ex_env poor_clock w0 ix1 ms1) = true /\ succeeds (process ex_env poor_clock (put_lamports w0 14 4) ix1 ms1) = false.
Proof.
  split; [exact (history_anytime _ _ w3_h)|]. split; [|split; [vm_compute; reflexivity|split; vm_compute; reflexivity]].
  destruct (succeeds_ok (process ex_env poor_clock w3 ix4 (ms_order 111 113 110))) as (s' & E); [vm_compute; reflexivity|].
  assert (X : s' = match process ex_env poor_clock w3 ix4 (ms_order 111 113 110) with Ok t => t | _ => [] end) by (rewrite E; reflexivity).
  exists s'. eexists. split; [exact E|]. rewrite X. split; [vm_compute; reflexivity|vm_compute; reflexivity].
Qed.
