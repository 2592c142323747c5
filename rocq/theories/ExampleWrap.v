(** A history, outside the guard of World.v, in which an unchecked addition wraps: the coin lot is 2^62, so that
    three lots exist and a fourth would not fit into 64 bits. *)
From Verif Require Import Base Fees ListSum Codec Critbit CritbitSlab Market Slots Matching MatchSteps Ledger MatchSpec Core CoreNew Instr Store Process StoreProofs World WorldInv WorldSpec WorldFacts WorldMain WorldExample.

Definition loose (s : store) : Prop := reachable ex_env (fun _ => True) s.
Definition loose_b (s : store) (b : bytes) (ms : list meta) : bool := sized_b s && bytes_b b && legal_b ms.
Lemma loose_ok s b ms : loose s -> loose_b s b ms = true -> loose (transact ex_env ex_clock s b ms).
Proof.
  intros H B. unfold loose_b in B. apply andb_prop in B. destruct B as [B B3]. apply andb_prop in B. destruct B as [B1 B2].
  apply reach_tx; [assumption|exact I|apply sized_ok|apply bytes_ok|apply legal_ok]; assumption.
Qed.
Ltac go H s b ms := match goal with |- loose ?w => replace w with (transact ex_env ex_clock s b ms) by (vm_compute; reflexivity) end;
  apply loose_ok; [exact H|vm_compute; reflexivity].
Definition big : Z := 2 ^ 62.
(** Wendy (100) has two lots of the coin, Yves (110) the third. *)
Definition o0 : store := [
  (10, ex_blank_acc 388); (11, ex_blank_acc 124); (12, ex_blank_acc 11308); (13, ex_blank_acc 14524); (14, ex_blank_acc 14524);
  (15, ex_token 17 900 0); (16, ex_token 18 900 0); (17, ex_mint); (18, ex_mint);
  (101, ex_blank_acc 3228); (102, ex_token 17 100 (2 * big)); (103, ex_token 18 100 10000);
  (111, ex_blank_acc 3228); (112, ex_token 17 110 big); (113, ex_token 18 110 10000) ].
Lemma o0_h : loose o0. Proof. apply reach_start, genesis_ok. vm_compute. reflexivity. Qed.
Definition oix1 : instr := IInitMarket (mkInitIx big 1 0 3 0).
Definition o1 : store := Eval vm_compute in transact ex_env ex_clock o0 (pack oix1) ms1.
Lemma o1_h : loose o1. Proof. go o0_h o0 (pack oix1) ms1. Qed.
(** Wendy bids for one lot, Yves sells it to them; the fill waits in the queue. *)
Definition oix2 : instr := INewOrderV3 (mkOrderIx Bid 1 1 10 DecrementTake Limit 1 65535 I64_MAX).
Definition o2 : store := Eval vm_compute in transact ex_env ex_clock o1 (pack oix2) (ms_order 101 103 100).
Lemma o2_h : loose o2. Proof. go o1_h o1 (pack oix2) (ms_order 101 103 100). Qed.
Definition oix3 : instr := INewOrderV3 (mkOrderIx Ask 1 1 1 DecrementTake Limit 2 65535 I64_MAX).
Definition o3 : store := Eval vm_compute in transact ex_env ex_clock o2 (pack oix3) (ms_order 111 112 110).
Lemma o3_h : loose o3. Proof. go o2_h o2 (pack oix3) (ms_order 111 112 110). Qed.
(** Wendy offers two lots and takes them back with a send-take, which pays out at once. *)
Definition oix4 : instr := INewOrderV3 (mkOrderIx Ask 5 2 1 DecrementTake Limit 3 65535 I64_MAX).
Definition o4 : store := Eval vm_compute in transact ex_env ex_clock o3 (pack oix4) (ms_order 101 102 100).
Lemma o4_h : loose o4. Proof. go o3_h o3 (pack oix4) (ms_order 101 102 100). Qed.
Definition oix5 : instr := ISendTake (mkTakeIx Bid 5 2 1000 2 0 65535).
Definition oms5 : list meta := map k_ [10; 11; 12; 13; 14; 102; 103] ++ [s_ 100] ++ map k_ [15; 16; spl_id; 900].
Definition o5 : store := Eval vm_compute in transact ex_env ex_clock o4 (pack oix5) oms5.
Lemma o5_h : loose o5. Proof. go o4_h o4 (pack oix5) oms5. Qed.
(** One of them is offered again: the account now counts three lots. *)
Definition oix6 : instr := INewOrderV3 (mkOrderIx Ask 5 1 1 DecrementTake Limit 4 65535 I64_MAX).
Definition o6 : store := Eval vm_compute in transact ex_env ex_clock o5 (pack oix6) (ms_order 101 102 100).
Lemma o6_h : loose o6. Proof. go o5_h o5 (pack oix6) (ms_order 101 102 100). Qed.
(** Consuming Wendy's old fill adds the fourth. *)
Definition o7 : store := Eval vm_compute in transact ex_env ex_clock o6 (pack (IConsumeEvents 2)) (map k_ [101; 10; 12; 0; 0]).
Lemma o7_h : loose o7. Proof. go o6_h o6 (pack (IConsumeEvents 2)) (map k_ [101; 10; 12; 0; 0]). Qed.

Definition o7_m : market := Eval vm_compute in fst (fst (of_look o7 10)).
Definition o7_A : astate := Eval vm_compute in snd (fst (of_look o7 10)).
Definition o7_L : list (Z * open_orders) := Eval vm_compute in snd (of_look o7 10).
Lemma o7_seen : seen ex_env o7 10 o7_m o7_A o7_L. Proof. apply look_seen; vm_compute; reflexivity. Qed.
Lemma o7_usable : usable o7_m. Proof. unfold usable. vm_compute. repeat split; discriminate. Qed.
