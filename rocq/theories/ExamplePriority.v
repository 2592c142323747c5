(** A market where an order waits behind another of the same price (C63). *)
From Verif Require Import Base Fees ListSum Codec Critbit CritbitSlab Market Matching Slots MatchSteps Ledger MatchSpec Core Instr InstrProofs Store Process StoreProofs World WorldSpec LifeSpec WorldExample.

(** Alice's asks of 4 lots at 50 and 2 lots at 60 rest; she adds 3 lots at 50; Bob buys 6 lots. *)
Definition pr_ix1 : instr := INewOrderV3 (mkOrderIx Ask 50 3 1 DecrementTake Limit 24 65535 I64_MAX).
Definition pr1 : store := Eval vm_compute in transact ex_env ex_clock w3 (pack pr_ix1) (ms_order 101 102 100).
Definition pr_ix2 : instr := INewOrderV3 (mkOrderIx Bid 55 6 1000000 DecrementTake Limit 25 65535 I64_MAX).
Definition pr2 : store := Eval vm_compute in transact ex_env ex_clock pr1 (pack pr_ix2) (ms_order 111 113 110).
Definition pr1_m : market := Eval vm_compute in fst (fst (of_look pr1 10)).
Definition pr1_A : astate := Eval vm_compute in snd (fst (of_look pr1 10)).
Definition pr1_L : list (Z * open_orders) := Eval vm_compute in snd (of_look pr1 10).
Lemma pr1_seen : seen ex_env pr1 10 pr1_m pr1_A pr1_L.
Proof. apply look_seen; vm_compute; reflexivity. Qed.
Definition pr2_m : market := Eval vm_compute in fst (fst (of_look pr2 10)).
Definition pr2_A : astate := Eval vm_compute in snd (fst (of_look pr2 10)).
Definition pr2_L : list (Z * open_orders) := Eval vm_compute in snd (of_look pr2 10).
Lemma pr2_seen : seen ex_env pr2 10 pr2_m pr2_A pr2_L.
Proof. apply look_seen; vm_compute; reflexivity. Qed.
Definition pr_E1 : list event_view := Eval vm_compute in skipn (length (a_evs w3_A)) (a_evs pr1_A).
Definition pr_E2 : list event_view := Eval vm_compute in skipn (length (a_evs pr1_A)) (a_evs pr2_A).
Definition first_ask : leaf := Eval vm_compute in nth 0 (a_asks w3_A) (mkLeaf 0 0 0 0 0 0).
Definition second_ask : leaf := Eval vm_compute in nth 1 (a_asks pr1_A) (mkLeaf 0 0 0 0 0 0).
Lemma pr1_stretch : stretch ex_env 10 w3 ([] ++ pr_E1) pr1.
Proof.
  replace pr1 with (transact ex_env ex_clock w3 (pack pr_ix1) (ms_order 101 102 100)) by (vm_compute; reflexivity).
  apply stretch_tx; [apply stretch_now|apply guard_ok; vm_compute; reflexivity|apply sized_ok; vm_compute; reflexivity|apply bytes_ok; vm_compute; reflexivity|apply legal_ok; vm_compute; reflexivity|].
  replace (transact ex_env ex_clock w3 (pack pr_ix1) (ms_order 101 102 100)) with pr1 by (vm_compute; reflexivity). exists w3_m, w3_A, w3_L, pr1_m, pr1_A, pr1_L, [], (a_evs w3_A). split; [exact w3_seen|]. split; [exact pr1_seen|]. split; [reflexivity|]. split; [vm_compute; reflexivity|auto].
Qed.
Lemma pr2_stretch : stretch ex_env 10 w3 (([] ++ pr_E1) ++ pr_E2) pr2.
Proof.
  replace pr2 with (transact ex_env ex_clock pr1 (pack pr_ix2) (ms_order 111 113 110)) by (vm_compute; reflexivity).
  apply stretch_tx; [exact pr1_stretch|apply guard_ok; vm_compute; reflexivity|apply sized_ok; vm_compute; reflexivity|apply bytes_ok; vm_compute; reflexivity|apply legal_ok; vm_compute; reflexivity|].
  replace (transact ex_env ex_clock pr1 (pack pr_ix2) (ms_order 111 113 110)) with pr2 by (vm_compute; reflexivity). exists pr1_m, pr1_A, pr1_L, pr2_m, pr2_A, pr2_L, [], (a_evs pr1_A). split; [exact pr1_seen|]. split; [exact pr2_seen|]. split; [reflexivity|]. split; [vm_compute; reflexivity|auto].
Qed.
