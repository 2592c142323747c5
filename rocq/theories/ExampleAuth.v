(** Concrete histories for Properties_Auth.v: a disabled market, a closed account, a forfeited rebate, a replace. *)
From Verif Require Import Base Fees ListSum Codec Critbit CritbitSlab Market Slots Matching MatchSteps Ledger MatchSpec Core CoreNew Instr Store Process StoreProofs World WorldInv WorldSpec WorldFacts WorldMain WorldExample.

(** ** Market 10 is disabled while Bob's bid rests and four events wait *)
Definition ms_disable : list meta := [k_ 10; s_ disable_authority].
Definition d1 : store := Eval vm_compute in transact ex_env ex_clock w4 (pack IDisableMarket) ms_disable.
Lemma d1_h : history ex_env d1. Proof. next w4_h w4 (pack IDisableMarket) ms_disable. Qed.
Definition d1_m : market := Eval vm_compute in fst (fst (of_look d1 10)).
Definition d1_A : astate := Eval vm_compute in snd (fst (of_look d1 10)).
Definition d1_L : list (Z * open_orders) := Eval vm_compute in snd (of_look d1 10).
Lemma d1_seen : seen ex_env d1 10 d1_m d1_A d1_L.
Proof. apply look_seen; vm_compute; reflexivity. Qed.
Lemma d1_usable : usable d1_m. Proof. unfold usable. vm_compute. repeat split; discriminate. Qed.
(** Bob cancels, the queue is drained, Bob settles and closes. *)
Definition d1_bid : leaf := nth 0 (a_bids d1_A) (mkLeaf 0 0 0 0 0 0).
Definition ms_cancel : list meta := [k_ 10; k_ 13; k_ 14; k_ 111; s_ 110; k_ 12].
Definition d2 : store := Eval vm_compute in transact ex_env ex_clock d1 (pack (ICancelV2 Bid (l_key d1_bid))) ms_cancel.
Lemma d2_h : history ex_env d2. Proof. next d1_h d1 (pack (ICancelV2 Bid (l_key d1_bid))) ms_cancel. Qed.
Definition d3 : store := Eval vm_compute in transact ex_env ex_clock d2 (pack ix5) ms_consume.
Lemma d3_h : history ex_env d3. Proof. next d2_h d2 (pack ix5) ms_consume. Qed.
Definition d4 : store := Eval vm_compute in transact ex_env ex_clock d3 (pack ISettleFunds) (ms_settle 111 110 112 113 [150]).
Lemma d4_h : history ex_env d4. Proof. next d3_h d3 (pack ISettleFunds) (ms_settle 111 110 112 113 [150]). Qed.
Definition d4_m : market := Eval vm_compute in fst (fst (of_look d4 10)).
Definition d4_A : astate := Eval vm_compute in snd (fst (of_look d4 10)).
Definition d4_L : list (Z * open_orders) := Eval vm_compute in snd (of_look d4 10).
Lemma d4_seen : seen ex_env d4 10 d4_m d4_A d4_L.
Proof. apply look_seen; vm_compute; reflexivity. Qed.
Lemma d4_usable : usable d4_m. Proof. unfold usable. vm_compute. repeat split; discriminate. Qed.
Definition ms_close : list meta := [k_ 111; s_ 110; k_ 100; k_ 10].
Definition d5 : store := Eval vm_compute in transact ex_env ex_clock d4 (pack ICloseOO) ms_close.
Lemma d5_h : history ex_env d5. Proof. next d4_h d4 (pack ICloseOO) ms_close. Qed.

(** ** Bob buys one lot immediately, settles before the crank, and the referrer's share arrives after *)
Definition r_ix : instr := INewOrderV3 (mkOrderIx Bid 50 1 1000000 DecrementTake ImmediateOrCancel 25 65535 I64_MAX).
Definition r1 : store := Eval vm_compute in transact ex_env ex_clock w3 (pack r_ix) (ms_order 111 113 110).
Lemma r1_h : history ex_env r1. Proof. next w3_h w3 (pack r_ix) (ms_order 111 113 110). Qed.
Definition r2 : store := Eval vm_compute in transact ex_env ex_clock r1 (pack ISettleFunds) (ms_settle 111 110 112 113 [150]).
Lemma r2_h : history ex_env r2. Proof. next r1_h r1 (pack ISettleFunds) (ms_settle 111 110 112 113 [150]). Qed.
Definition r3 : store := Eval vm_compute in transact ex_env ex_clock r2 (pack ix5) ms_consume.
Lemma r3_h : history ex_env r3. Proof. next r2_h r2 (pack ix5) ms_consume. Qed.

(** ** Alice replaces the ask of client id 22 by two new orders *)
Definition ms_replace : list meta := ms_order 101 102 100.
Definition x_ixs : list order_ix := [mkOrderIx Ask 65 1 1 DecrementTake Limit 22 65535 I64_MAX; mkOrderIx Ask 66 1 1 DecrementTake Limit 26 65535 I64_MAX].
