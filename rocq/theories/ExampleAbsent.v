(** A market where a trader is away (C64). *)
From Verif Require Import Base Fees ListSum Codec Critbit CritbitSlab Market Matching Slots MatchSteps Ledger MatchSpec Core Instr InstrProofs Store Process StoreProofs World WorldSpec LifeSpec AbsentSpec WorldExample.

(** Alice's asks of 4 lots at 50 and 2 lots at 60 rest, and she is away.  Bob buys 5 lots and somebody processes the events. *)
Definition ab4_m : market := Eval vm_compute in fst (fst (of_look w4 10)).
Definition ab4_A : astate := Eval vm_compute in snd (fst (of_look w4 10)).
Definition ab4_L : list (Z * open_orders) := Eval vm_compute in snd (of_look w4 10).
Lemma ab4_seen : seen ex_env w4 10 ab4_m ab4_A ab4_L.
Proof. apply look_seen; vm_compute; reflexivity. Qed.
Definition ab5_m : market := Eval vm_compute in fst (fst (of_look w5 10)).
Definition ab5_A : astate := Eval vm_compute in snd (fst (of_look w5 10)).
Definition ab5_L : list (Z * open_orders) := Eval vm_compute in snd (of_look w5 10).
Lemma ab5_seen : seen ex_env w5 10 ab5_m ab5_A ab5_L.
Proof. apply look_seen; vm_compute; reflexivity. Qed.
Definition ab_E : list event_view := Eval vm_compute in skipn (length (a_evs w3_A)) (a_evs ab4_A).
Definition alice3 : open_orders := Eval vm_compute in snd (nth 0 (filter (fun a => fst a =? 101) w3_L) (0, oo_zero)).
Definition alice5 : open_orders := Eval vm_compute in snd (nth 0 (filter (fun a => fst a =? 101) ab5_L) (0, oo_zero)).
Lemma ab4_absent : absent ex_env 10 100 w3 ([] ++ ab_E) w4.
Proof.
  replace w4 with (transact ex_env ex_clock w3 (pack ix4) (ms_order 111 113 110)) by (vm_compute; reflexivity).
  apply absent_tx; [apply absent_now|apply guard_ok; vm_compute; reflexivity|apply sized_ok; vm_compute; reflexivity|apply bytes_ok; vm_compute; reflexivity|apply legal_ok; vm_compute; reflexivity| |].
  - intros (a & I & K & S0). vm_compute in I. decompose [or] I; subst; try discriminate; contradiction.
  - replace (transact ex_env ex_clock w3 (pack ix4) (ms_order 111 113 110)) with w4 by (vm_compute; reflexivity). exists w3_m, w3_A, w3_L, ab4_m, ab4_A, ab4_L, [], (a_evs w3_A). split; [exact w3_seen|]. split; [exact ab4_seen|]. split; [reflexivity|]. split; [vm_compute; reflexivity|auto].
Qed.
Lemma ab5_absent : absent ex_env 10 100 w3 (([] ++ ab_E) ++ []) w5.
Proof.
  replace w5 with (transact ex_env ex_clock w4 (pack ix5) ms_consume) by (vm_compute; reflexivity).
  apply absent_tx; [exact ab4_absent|apply guard_ok; vm_compute; reflexivity|apply sized_ok; vm_compute; reflexivity|apply bytes_ok; vm_compute; reflexivity|apply legal_ok; vm_compute; reflexivity| |].
  - intros (a & I & K & S0). vm_compute in I. decompose [or] I; subst; try discriminate; contradiction.
  - replace (transact ex_env ex_clock w4 (pack ix5) ms_consume) with w5 by (vm_compute; reflexivity). exists ab4_m, ab4_A, ab4_L, ab5_m, ab5_A, ab5_L, (a_evs ab4_A), []. split; [exact ab4_seen|]. split; [exact ab5_seen|]. split; [vm_compute; reflexivity|]. split; [vm_compute; reflexivity|auto].
Qed.
