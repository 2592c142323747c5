(** A history for the crank program: one person places 33 orders that find no counterpart, each from an account of its own, the
    first one from the account with the largest address; the request queue has room for the bytes of one event. *)
From Verif Require Import Base Fees ListSum Queue Codec Critbit CritbitSlab Market Slots Matching MatchSteps Ledger MatchSpec Core Instr Store Process StoreProofs World WorldSpec WorldExample Layout LayoutSpec Client ClientSpec Crank CrankSpec.

Definition q0 : store := [
  (10, ex_blank_acc 388); (11, ex_blank_acc 132); (12, ex_blank_acc 11308); (13, ex_blank_acc 14524); (14, ex_blank_acc 14524);
  (15, ex_token 17 900 0); (16, ex_token 18 900 0); (17, ex_mint); (18, ex_mint); (103, ex_token 18 100 100000000); (100, mkAccount 0 5000 0 DZero) ] ++
  map (fun i => (1000 + Z.of_nat i, ex_blank_acc 3228)) (seq 0 33).
Definition qix : instr := INewOrderV3 (mkOrderIx Bid 50 1 1000000 DecrementTake ImmediateOrCancel 7 65535 I64_MAX).
Fixpoint sends (s : store) (l : list (bytes * list meta)) : store := match l with [] => s | (b, ms) :: r => sends (transact ex_env ex_clock s b ms) r end.
Fixpoint sends_b (s : store) (l : list (bytes * list meta)) : bool := match l with [] => true | (b, ms) :: r => step_b s b ms && sends_b (transact ex_env ex_clock s b ms) r end.
Lemma sends_ok l : forall s, history ex_env s -> sends_b s l = true -> history ex_env (sends s l).
Proof. induction l as [|[b ms] r IH]; intros s H B; cbn [sends sends_b] in *; [exact H|]. apply andb_prop in B. destruct B. apply IH; [apply step_ok; assumption|assumption]. Qed.
Lemma q0_h : history ex_env q0. Proof. apply reach_start, genesis_ok. vm_compute. reflexivity. Qed.
Definition qtx (n : nat) : list (bytes * list meta) := (pack ix1, ms1) :: map (fun x => (pack qix, ms_order x 103 100)) (firstn n (1032 :: map (fun i => 1000 + Z.of_nat i) (seq 0 32))).
(** After three orders and after all of them *)
Definition q3 : store := Eval vm_compute in sends q0 (qtx 3).
Definition q33 : store := Eval vm_compute in sends q0 (qtx 33).
Lemma q3_h : history ex_env q3. Proof. replace q3 with (sends q0 (qtx 3)) by (vm_compute; reflexivity). apply sends_ok; [exact q0_h|vm_compute; reflexivity]. Qed.
Lemma q33_h : history ex_env q33. Proof. replace q33 with (sends q0 (qtx 33)) by (vm_compute; reflexivity). apply sends_ok; [exact q0_h|vm_compute; reflexivity]. Qed.
Definition q3_m : market := Eval vm_compute in fst (fst (of_look q3 10)).
Definition q3_A : astate := Eval vm_compute in snd (fst (of_look q3 10)).
Definition q3_L : list (Z * open_orders) := Eval vm_compute in snd (of_look q3 10).
Lemma q3_seen : seen ex_env q3 10 q3_m q3_A q3_L. Proof. apply look_seen; vm_compute; reflexivity. Qed.
Lemma q3_usable : usable q3_m. Proof. unfold usable. vm_compute. repeat split; discriminate. Qed.
Definition q33_m : market := Eval vm_compute in fst (fst (of_look q33 10)).
Definition q33_A : astate := Eval vm_compute in snd (fst (of_look q33 10)).
Definition q33_L : list (Z * open_orders) := Eval vm_compute in snd (of_look q33 10).
Lemma q33_seen : seen ex_env q33 10 q33_m q33_A q33_L. Proof. apply look_seen; vm_compute; reflexivity. Qed.
Lemma q33_usable : usable q33_m. Proof. unfold usable. vm_compute. repeat split; discriminate. Qed.
(** The bytes of the queues *)
Definition queue_at (s : store) (x : Z) : bytes := match a_data (sget s x) with DEventQ q => enc_queue q [] | _ => [] end.
Definition reqs_at (s : store) (x : Z) : bytes := match a_data (sget s x) with DReqQ rq => enc_reqs rq 0 (repeat 0 (Z.to_nat (a_len (sget s x) - 44))) | _ => [] end.
Definition market_at (s : store) (x : Z) : bytes := match a_data (sget s x) with DMarket m => framed (enc_market m) | _ => [] end.
Lemma q3_fetched : fetched q3 q3_m (queue_at q3 12) (reqs_at q3 11).
Proof. constructor; [split; vm_compute; reflexivity|split; vm_compute; reflexivity|vm_compute; reflexivity]. Qed.
Lemma q33_fetched : fetched q33 q33_m (queue_at q33 12) (reqs_at q33 11).
Proof. constructor; [split; vm_compute; reflexivity|split; vm_compute; reflexivity|vm_compute; reflexivity]. Qed.
Lemma w4_fetched : fetched w4 w4_m (queue_at w4 12) (reqs_at w4 11).
Proof. constructor; [split; vm_compute; reflexivity|split; vm_compute; reflexivity|vm_compute; reflexivity]. Qed.
Lemma q3_market : LayoutSpec.holds q3 10 (market_at q3 10). Proof. split; vm_compute; reflexivity. Qed.
Definition q_opts : c_opts := mkOpts 2 2 2 1.
Definition q_ks : mkeys := Eval vm_compute in match c_keys ex_env 10 (market_at q3 10) with Ok ks => ks | _ => mkKeys 0 0 0 0 0 0 0 0 end.
Lemma q3_guard : no_overflow ex_env q3. Proof. apply guard_ok. vm_compute. reflexivity. Qed.
Lemma q33_guard : no_overflow ex_env q33. Proof. apply guard_ok. vm_compute. reflexivity. Qed.
Lemma q3_sized : sized q3. Proof. apply sized_ok. vm_compute. reflexivity. Qed.
Lemma q3_free : ~ needs_crank_authority q3_m. Proof. intros [X _]. discriminate X. Qed.
Lemma q33_free : ~ needs_crank_authority q33_m. Proof. intros [X _]. discriminate X. Qed.
