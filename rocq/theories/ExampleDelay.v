(** A trader waits for the queue while others trade on (C78). *)
From Verif Require Import Base Fees ListSum Codec Critbit CritbitSlab Market Matching Slots MatchSteps Ledger MatchSpec Core Instr InstrProofs Store Process StoreProofs World WorldSpec LifeSpec AbsentSpec WorldExample ExampleAuth ExampleIncome.

(** Bob has bought 4 lots of Alice, the events are still queued, and Alice cancels the rest of her orders.  Somebody
    sells a lot to Bob, which queues two more events, and somebody processes the first five events. *)
Definition dl_ask : leaf := Eval vm_compute in nth 0 (a_asks w4_A) (mkLeaf 0 0 0 0 0 0).
Definition dl_cancel : instr := ICancelV2 Ask (l_key dl_ask).
Definition ms_dl_cancel : list meta := [k_ 10; k_ 13; k_ 14; k_ 101; s_ 100; k_ 12].
Definition dl_take : instr := ISendTake (mkTakeIx Ask 55 1 1000000 1 0 10).
Definition dl_consume : instr := IConsumeEvents 5.
Definition dl0 : store := Eval vm_compute in transact ex_env ex_clock w4 (pack dl_cancel) ms_dl_cancel.
Definition dl1 : store := Eval vm_compute in transact ex_env ex_clock dl0 (pack dl_take) ms_in_take.
Definition dl2 : store := Eval vm_compute in transact ex_env ex_clock dl1 (pack dl_consume) ms_consume.
Lemma dl0_h : history ex_env dl0. Proof. next w4_h w4 (pack dl_cancel) ms_dl_cancel. Qed.
Definition dl0_m : market := Eval vm_compute in fst (fst (of_look dl0 10)).
Definition dl0_A : astate := Eval vm_compute in snd (fst (of_look dl0 10)).
Definition dl0_L : list (Z * open_orders) := Eval vm_compute in snd (of_look dl0 10).
Lemma dl0_seen : seen ex_env dl0 10 dl0_m dl0_A dl0_L.
Proof. apply look_seen; vm_compute; reflexivity. Qed.
Definition dl1_m : market := Eval vm_compute in fst (fst (of_look dl1 10)).
Definition dl1_A : astate := Eval vm_compute in snd (fst (of_look dl1 10)).
Definition dl1_L : list (Z * open_orders) := Eval vm_compute in snd (of_look dl1 10).
Lemma dl1_seen : seen ex_env dl1 10 dl1_m dl1_A dl1_L.
Proof. apply look_seen; vm_compute; reflexivity. Qed.
Definition dl2_m : market := Eval vm_compute in fst (fst (of_look dl2 10)).
Definition dl2_A : astate := Eval vm_compute in snd (fst (of_look dl2 10)).
Definition dl2_L : list (Z * open_orders) := Eval vm_compute in snd (of_look dl2 10).
Lemma dl2_seen : seen ex_env dl2 10 dl2_m dl2_A dl2_L.
Proof. apply look_seen; vm_compute; reflexivity. Qed.
Definition dl_E : list event_view := Eval vm_compute in skipn (length (a_evs dl0_A)) (a_evs dl1_A).
Definition dl_alice : open_orders := Eval vm_compute in snd (nth 0 (filter (fun a => fst a =? 101) dl0_L) (0, oo_zero)).
Definition dl_alice' : open_orders := Eval vm_compute in snd (nth 0 (filter (fun a => fst a =? 101) dl2_L) (0, oo_zero)).
Lemma dl1_absent : absent ex_env 10 100 dl0 ([] ++ dl_E) dl1.
Proof.
  replace dl1 with (transact ex_env ex_clock dl0 (pack dl_take) ms_in_take) by (vm_compute; reflexivity).
  apply absent_tx; [apply absent_now|apply guard_ok; vm_compute; reflexivity|apply sized_ok; vm_compute; reflexivity|apply bytes_ok; vm_compute; reflexivity|apply legal_ok; vm_compute; reflexivity| |].
  - intros (a & I & K & S0). vm_compute in I. decompose [or] I; subst; try discriminate; contradiction.
  - replace (transact ex_env ex_clock dl0 (pack dl_take) ms_in_take) with dl1 by (vm_compute; reflexivity). exists dl0_m, dl0_A, dl0_L, dl1_m, dl1_A, dl1_L, [], (a_evs dl0_A). split; [exact dl0_seen|]. split; [exact dl1_seen|]. split; [reflexivity|]. split; [vm_compute; reflexivity|auto].
Qed.
Lemma dl2_absent : absent ex_env 10 100 dl0 (([] ++ dl_E) ++ []) dl2.
Proof.
  replace dl2 with (transact ex_env ex_clock dl1 (pack dl_consume) ms_consume) by (vm_compute; reflexivity).
  apply absent_tx; [exact dl1_absent|apply guard_ok; vm_compute; reflexivity|apply sized_ok; vm_compute; reflexivity|apply bytes_ok; vm_compute; reflexivity|apply legal_ok; vm_compute; reflexivity| |].
  - intros (a & I & K & S0). vm_compute in I. decompose [or] I; subst; try discriminate; contradiction.
  - replace (transact ex_env ex_clock dl1 (pack dl_consume) ms_consume) with dl2 by (vm_compute; reflexivity). exists dl1_m, dl1_A, dl1_L, dl2_m, dl2_A, dl2_L, (firstn 5 (a_evs dl1_A)), (a_evs dl2_A). split; [exact dl1_seen|]. split; [exact dl2_seen|]. split; [vm_compute; reflexivity|]. split; [vm_compute; reflexivity|auto].
Qed.
