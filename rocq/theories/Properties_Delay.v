(** Nobody can keep a trader waiting (C78).  [absent e k w s E s']: from [s] any transactions with any bytes and accounts lead
    to [s'], none of them signed by [w], and [E] are the events queued on market [k] meanwhile.  Events are processed in
    turn, so those waiting at [s] have been processed when no more wait than were queued since.
    [coin_claim] and [pc_claim] are all an account has on the market, counting trades whose events are still queued
    (AbsentSpec.v). *)
From Verif Require Import Base Fees ListSum Codec Critbit CritbitSlab Market Matching Slots MatchSteps Ledger MatchSpec Core Instr InstrProofs Store Process StoreProofs World WorldSpec LifeSpec AbsentSpec DelaySpec DelayProofs WorldExample ExampleAuth ExampleIncome ExampleDelay.

(** Nothing overtakes: what was queued first is processed first, whoever processes it. *)
Theorem C78_in_turn : forall e, env_ok e -> forall k w s E s' m A L m' A' L' x oo, history e s -> absent e k w s E s' -> seen e s k m A L -> usable m -> seen e s' k m' A' L' -> In (x, oo) L -> oo_owner oo = w ->
  exists used, a_evs A ++ E = used ++ a_evs A'.
Proof. exact in_turn. Qed.
Print Assumptions C78_in_turn.
(** Once the events have been processed that wait now, all is free that the account has now, except what its orders on the
    book lock, however many events others queue meanwhile. *)
Theorem C78_free_in_turn : forall e, env_ok e -> forall k w s E s' m A L m' A' L' x oo, history e s -> absent e k w s E s' -> seen e s k m A L -> usable m -> seen e s' k m' A' L' -> In (x, oo) L -> oo_owner oo = w ->
  (length (a_evs A') <= length E)%nat ->
  exists oo', In (x, oo') L' /\ oo_owner oo' = w /\
    coin_claim x oo A - zsum (worth m Ask) (own_orders x (a_asks A)) <= oo_coin_free oo' /\ pc_claim x oo A - zsum (worth m Bid) (own_orders x (a_bids A)) <= oo_pc_free oo'.
Proof. exact free_in_turn. Qed.
Print Assumptions C78_free_in_turn.
(** So who has taken their orders off the book can then withdraw all of it, to the last unit, and close the account. *)
Theorem C78_all_out : forall e, env_ok e -> forall k w s E s' m A L m' A' L' x oo, history e s -> absent e k w s E s' -> seen e s k m A L -> usable m -> seen e s' k m' A' L' -> In (x, oo) L -> oo_owner oo = w ->
  (length (a_evs A') <= length E)%nat -> no_orders x A ->
  exists oo', In (x, oo') L' /\ oo_owner oo' = w /\ all_free oo' /\ oo_coin_total oo' = coin_claim x oo A /\ oo_pc_total oo' = pc_claim x oo A.
Proof. exact all_out. Qed.
Print Assumptions C78_all_out.

(** Alice waits for 200000 from her sale; two more events are queued behind hers, and five are processed. *)
Example C78_case : env_ok ex_env /\ history ex_env dl0 /\ absent ex_env 10 100 dl0 (([] ++ dl_E) ++ []) dl2 /\ seen ex_env dl0 10 dl0_m dl0_A dl0_L /\ usable dl0_m /\ seen ex_env dl2 10 dl2_m dl2_A dl2_L /\
  In (101, dl_alice) dl0_L /\ oo_owner dl_alice = 100 /\ (length (a_evs dl2_A) <= length (([] ++ dl_E) ++ []))%nat /\ no_orders 101 dl0_A /\
  length (a_evs dl0_A) = 5%nat /\ length dl_E = 2%nat /\ length (a_evs dl2_A) = 2%nat /\ oo_pc_free dl_alice = 0 /\ pc_claim 101 dl_alice dl0_A = 200000 /\ In (101, dl_alice') dl2_L /\ oo_pc_free dl_alice' = 200000.
Proof.
  split; [exact ex_env_ok|]. split; [exact dl0_h|]. split; [exact dl2_absent|]. split; [exact dl0_seen|]. split; [vm_compute; repeat split; discriminate|]. split; [exact dl2_seen|].
  split; [vm_compute; auto|]. split; [vm_compute; reflexivity|]. split; [vm_compute; lia|]. split; [intros [] l I; vm_compute in I; decompose [or] I; subst; try contradiction; vm_compute; discriminate|].
  do 5 (split; [vm_compute; reflexivity|]). split; [vm_compute; auto|vm_compute; reflexivity].
Qed.
(** Before that it is not free: with all seven events waiting she can withdraw nothing of it. *)
Example C78_not_before : ~ (length (a_evs dl1_A) <= length ([] ++ dl_E))%nat /\ absent ex_env 10 100 dl0 ([] ++ dl_E) dl1 /\ In (101, dl_alice) dl1_L /\ oo_pc_free dl_alice = 0.
Proof. split; [vm_compute; lia|]. split; [exact dl1_absent|]. split; [vm_compute; auto|vm_compute; reflexivity]. Qed.
