(** The life of a resting order (C61).  [stretch e k s E s']: from [s] any transactions with any bytes, accounts
    and signers lead to [s'], and [E] are the events queued on market [k] meanwhile, in order.  [about sd id]
    picks the events that name the order.  [story] says what such events may be (LifeSpec.v). *)
From Verif Require Import Base Fees ListSum Codec Critbit CritbitSlab Market Matching Slots MatchSteps Ledger MatchSpec Core Instr InstrProofs Store Process StoreProofs World WorldSpec LifeSpec LifeMain WorldExample.

(** Whatever happens, the events about a resting order tell its story: trades at its own price, reductions, and at
    most one end; and the rest of it is on the book, as it was, or it is gone and never comes back. *)
Theorem C61_the_life_of_an_order : forall e, env_ok e -> forall k s E s' m A L m' A' L' sd l, history e s -> stretch e k s E s' -> seen e s k m A L -> usable m -> seen e s' k m' A' L' -> In l (book_of A sd) ->
  exists q', story m sd l (l_qty l) (filter (about sd (l_key l)) E) q' /\ rests sd l A' q'.
Proof. exact life_of_an_order. Qed.
Print Assumptions C61_the_life_of_an_order.
(** Over its life nothing is lost: what it locked was paid for lots traded, was released, or is still locked;
    what was paid fetched exactly its own price; and a final event is there exactly when nothing rests. *)
Theorem C61_the_balance_of_an_order : forall e, env_ok e -> forall k s E s' m A L m' A' L' sd l, history e s -> stretch e k s E s' -> seen e s k m A L -> usable m -> seen e s' k m' A' L' -> In l (book_of A sd) ->
  exists q' n, rests sd l A' q' /\ 0 <= n <= l_qty l - q' /\
    worth m sd l = zsum taken (filter (about sd (l_key l)) E) + part m sd l q' /\
    zsum spent (filter (about sd (l_key l)) E) = part m sd l n /\ zsum brought (filter (about sd (l_key l)) E) = fetch m sd l n /\
    (q' = 0 <-> exists v, In v E /\ about sd (l_key l) v = true /\ ev_final v = true).
Proof. exact life_balance. Qed.
Print Assumptions C61_the_balance_of_an_order.
(** Every event about it has its cause: a trade comes with somebody else's order; anything released was withdrawn
    over the owner's signature or met the owner's own order, was pruned by the prune authority, or the order
    was the last in priority of its side when a new one needed the room. *)
Theorem C61_the_causes : forall e, env_ok e -> forall s c i ms s' k m A L m' A' L', history e s -> no_overflow e s -> sized s -> legal e ms -> wf_instr i -> process e c s i ms = Ok s' ->
  seen e s k m A L -> usable m -> seen e s' k m' A' L' ->
  exists E, queued e k s s' E /\ forall sd l, In l (book_of A sd) ->
    exists q', story m sd l (l_qty l) (filter (about sd (l_key l)) E) q' /\ rests sd l A' q' /\
      forall v oo, In v E -> about sd (l_key l) v = true -> In (l_owner l, oo) L -> cause e s k m i ms A A' sd l (oo_owner oo) v.
Proof. exact life_step. Qed.
Print Assumptions C61_the_causes.
(** Every transaction queues exactly one such list of events, so every history is a stretch. *)
Theorem C61_every_history_counts : forall e, env_ok e -> forall s c b ms k m A L, history e s -> no_overflow e s -> sized s -> is_bytes b -> legal e ms -> seen e s k m A L -> usable m ->
  exists E, queued e k s (transact e c s b ms) E /\ forall E', queued e k s (transact e c s b ms) E' -> E' = E.
Proof. exact queued_once. Qed.
Print Assumptions C61_every_history_counts.

(** Alice's ask of 4 lots at 50 rests; Bob buys all of it; the events are consumed. *)
Definition her_ask : leaf := Eval vm_compute in nth 0 (a_asks w3_A) (mkLeaf 0 0 0 0 0 0).
Definition bought : list event_view := Eval vm_compute in skipn (length (a_evs w3_A)) (a_evs w4_A).
Example C61_case : history ex_env w3 /\ stretch ex_env 10 w3 bought w5 /\ seen ex_env w3 10 w3_m w3_A w3_L /\ usable w3_m /\ seen ex_env w5 10 w5_m w5_A w5_L /\ In her_ask (book_of w3_A Ask) /\ l_qty her_ask = 4 /\
  length bought = 4%nat /\ length (filter (about Ask (l_key her_ask)) bought) = 2%nat /\ worth w3_m Ask her_ask = 40 /\ zsum spent (filter (about Ask (l_key her_ask)) bought) = 40 /\ zsum brought (filter (about Ask (l_key her_ask)) bought) = 200000.
Proof.
  split; [exact w3_h|]. split.
  - replace bought with (([] ++ bought) ++ []) by reflexivity.
    replace w5 with (transact ex_env ex_clock w4 (pack ix5) ms_consume) by (vm_compute; reflexivity). apply stretch_tx; [|apply guard_ok; vm_compute; reflexivity|apply sized_ok; vm_compute; reflexivity|apply bytes_ok; vm_compute; reflexivity|apply legal_ok; vm_compute; reflexivity|].
    + replace w4 with (transact ex_env ex_clock w3 (pack ix4) (ms_order 111 113 110)) by (vm_compute; reflexivity). apply stretch_tx; [apply stretch_now|apply guard_ok; vm_compute; reflexivity|apply sized_ok; vm_compute; reflexivity|apply bytes_ok; vm_compute; reflexivity|apply legal_ok; vm_compute; reflexivity|].
      replace (transact ex_env ex_clock w3 (pack ix4) (ms_order 111 113 110)) with w4 by (vm_compute; reflexivity). exists w3_m, w3_A, w3_L, w4_m, w4_A, w4_L, [], (a_evs w3_A). split; [exact w3_seen|]. split; [exact w4_seen|]. split; [reflexivity|]. split; [vm_compute; reflexivity|auto].
    + replace (transact ex_env ex_clock w4 (pack ix5) ms_consume) with w5 by (vm_compute; reflexivity). exists w4_m, w4_A, w4_L, w5_m, w5_A, w5_L, (a_evs w4_A), []. split; [exact w4_seen|]. split; [exact w5_seen|]. split; [rewrite app_nil_r; reflexivity|]. split; [vm_compute; reflexivity|auto].
  - split; [exact w3_seen|]. split; [exact w3_usable|]. split; [exact w5_seen|]. vm_compute. repeat split; auto.
Qed.
Example C61_cause_case : history ex_env w3 /\ no_overflow ex_env w3 /\ sized w3 /\ legal ex_env (ms_order 111 113 110) /\ wf_instr ix4 /\ process ex_env ex_clock w3 ix4 (ms_order 111 113 110) = Ok w4 /\
  seen ex_env w3 10 w3_m w3_A w3_L /\ usable w3_m /\ seen ex_env w4 10 w4_m w4_A w4_L /\ In her_ask (book_of w3_A Ask) /\ In (l_owner her_ask) (map fst w3_L).
Proof.
  split; [exact w3_h|]. split; [apply guard_ok; vm_compute; reflexivity|]. split; [apply sized_ok; vm_compute; reflexivity|]. split; [apply legal_ok; vm_compute; reflexivity|].
  split; [vm_compute; repeat split; discriminate|]. split; [vm_compute; reflexivity|]. split; [exact w3_seen|]. split; [exact w3_usable|]. split; [exact w4_seen|]. split; vm_compute; auto.
Qed.
