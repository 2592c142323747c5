(** Event consumption in every state of every history (C26, C27).  [crank], [crank_allowed], [served],
    [booked] and [consumes] are defined in WorldSpec.v. *)
From Coq Require Import Sorted.
From Verif Require Import Base Fees ListSum Codec Critbit CritbitSlab Market Slots MatchSteps Ledger MatchSpec Core Instr Store Process StoreProofs World WorldInv WorldSpec WorldFacts WorldMain WorldCrank WorldExample.

(** C26.  The state satisfies the guard of World.v, as every state of a history in which something follows.
    First: no consume ever fails.  Second: supplying the owner of the head event consumes it.  Third: a sorted
    list with all owners drains the queue. *)
Theorem C26_never_fails : forall e, env_ok e -> forall s k m A L, history e s -> no_overflow e s -> seen e s k m A L -> usable m ->
  forall c i ms oos n, crank i ms k (m_event_q m) oos n -> crank_allowed m i ms -> exists s', process e c s i ms = Ok s'.
Proof. exact (fun e EO s k m A L H => crank_succeeds e EO s k m A L (reachable_inv e EO s H)). Qed.
Print Assumptions C26_never_fails.
Theorem C26_head_can_be_consumed : forall e, env_ok e -> forall s k m A L, history e s -> no_overflow e s -> seen e s k m A L -> usable m ->
  forall c i ms v r, a_evs A = v :: r -> crank i ms k (m_event_q m) [ev_owner v] 1 -> crank_allowed m i ms ->
  exists s', process e c s i ms = Ok s' /\ consumes e s s' k m A L [v].
Proof. exact (fun e EO s k m A L H => crank_head e EO s k m A L (reachable_inv e EO s H)). Qed.
Print Assumptions C26_head_can_be_consumed.
Theorem C26_queue_can_be_drained : forall e, env_ok e -> forall s k m A L, history e s -> no_overflow e s -> seen e s k m A L -> usable m ->
  forall c i ms oos n, crank i ms k (m_event_q m) oos n -> crank_allowed m i ms -> StronglySorted Z.lt oos ->
  (forall v, In v (a_evs A) -> In (ev_owner v) oos) -> zlen (a_evs A) <= n ->
  exists s', process e c s i ms = Ok s' /\ consumes e s s' k m A L (a_evs A).
Proof. exact (fun e EO s k m A L H => crank_drain e EO s k m A L (reachable_inv e EO s H)). Qed.
Print Assumptions C26_queue_can_be_drained.

(** C27 *)
Theorem C27_exactly_the_served_prefix : forall e, env_ok e -> forall s k m A L, history e s -> no_overflow e s -> seen e s k m A L -> usable m ->
  forall c i ms q oos n s', crank i ms k q oos n -> StronglySorted Z.lt oos -> process e c s i ms = Ok s' ->
  q = m_event_q m /\ crank_allowed m i ms /\ consumes e s s' k m A L (served (Z.to_nat n) oos (a_evs A)).
Proof. exact (fun e EO s k m A L H => crank_effect e EO s k m A L (reachable_inv e EO s H)). Qed.
Print Assumptions C27_exactly_the_served_prefix.
(** Two consumes in a row are one: the same store, or the same failure. *)
Theorem C27_splitting : forall e, env_ok e -> forall c s a b ms, history e s -> 0 <= a -> 0 <= b ->
  (s1 <- process e c s (IConsumeEvents a) ms ;; process e c s1 (IConsumeEvents b) ms) = process e c s (IConsumeEvents (a + b)) ms /\
  (s1 <- process e c s (IConsumePermissioned a) ms ;; process e c s1 (IConsumePermissioned b) ms) = process e c s (IConsumePermissioned (a + b)) ms.
Proof. exact (fun e EO c s a b ms H => consume_split e EO c s a b ms (wi_str e s (reachable_inv e EO s H))). Qed.
Print Assumptions C27_splitting.

(** Four events of two accounts wait on an open market; with only account 101 supplied the first two are
    consumed, with both all four are. *)
Example C26_C27_case : exists e s k m A L ms, env_ok e /\ history e s /\ no_overflow e s /\ seen e s k m A L /\ usable m /\
  crank (IConsumeEvents 10) ms k (m_event_q m) [101; 111] 10 /\ crank_allowed m (IConsumeEvents 10) ms /\ StronglySorted Z.lt [101; 111] /\
  map ev_owner (a_evs A) = [101; 101; 111; 111] /\ served 10 [101; 111] (a_evs A) = a_evs A /\ served 10 [101] (a_evs A) = firstn 2 (a_evs A) /\
  exists s', process e ex_clock s (IConsumeEvents 10) ms = Ok s'.
Proof.
  exists ex_env, w4, 10, w4_m, w4_A, w4_L, ms_consume.
  split; [exact ex_env_ok|]. split; [exact w4_h|]. split; [apply guard_ok; vm_compute; reflexivity|]. split; [exact w4_seen|]. split; [exact w4_usable|].
  split. { split; [discriminate|]. split; [lia|]. left. split; [reflexivity|]. exists 0, 0. vm_compute. reflexivity. }
  split; [left; vm_compute; reflexivity|]. split; [repeat constructor|].
  split; [vm_compute; reflexivity|]. split; [vm_compute; reflexivity|]. split; [vm_compute; reflexivity|]. apply succeeds_ok. vm_compute. reflexivity.
Qed.
(** Two final events on a market with a crank authority. *)
Example C26_C27_permissioned_case : exists e s k m A L ms, env_ok e /\ history e s /\ no_overflow e s /\ seen e s k m A L /\ usable m /\
  crank (IConsumePermissioned 5) ms k (m_event_q m) [131] 5 /\ crank_allowed m (IConsumePermissioned 5) ms /\
  map ev_owner (a_evs A) = [131; 131] /\ exists s', process e ex_clock s (IConsumePermissioned 5) ms = Ok s'.
Proof.
  exists ex_env, w12, 30, w12_m, w12_A, w12_L, ms13.
  split; [exact ex_env_ok|]. split; [exact w12_h|]. split; [apply guard_ok; vm_compute; reflexivity|]. split; [exact w12_seen|]. split; [exact w12_usable|].
  split. { split; [discriminate|]. split; [lia|]. right. split; [reflexivity|]. exists 302. vm_compute. reflexivity. }
  split. { split; [vm_compute; reflexivity|]. split; [vm_compute; reflexivity|]. exists (map k_ [131; 30; 32]). vm_compute. reflexivity. }
  split; [vm_compute; reflexivity|]. apply succeeds_ok. vm_compute. reflexivity.
Qed.
