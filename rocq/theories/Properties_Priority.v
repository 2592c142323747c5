(** Price and time priority over whole histories (C63).  [stretch e k s E s']: from [s] any transactions with any
    bytes, accounts and signers lead to [s'], and [E] are the events queued on market [k] meanwhile, in order. *)
From Verif Require Import Base Fees ListSum Codec Critbit CritbitSlab Market Matching Slots MatchSteps Ledger MatchSpec Core Instr InstrProofs Store Process StoreProofs World WorldSpec LifeSpec LifeMain WorldExample ExamplePriority.

(** While an order rests, no order of its side with a worse price, and none of the same price that was placed later,
    trades: whenever one of those trades, an earlier event has already said that this order is gone.  It does
    not matter when the other order was placed, by whom, or which instructions brought the takers. *)
Theorem C63_price_time_priority : forall e, env_ok e -> forall k s E s' m A L sd l, history e s -> stretch e k s E s' -> seen e s k m A L -> usable m -> In l (book_of A sd) -> served_first sd l E.
Proof. exact priority. Qed.
Print Assumptions C63_price_time_priority.
(** An order that comes to the book later at the same price ranks behind. *)
Theorem C63_later_ranks_behind : forall e, env_ok e -> forall k s E s' m A L m' A' L' sd l y, history e s -> stretch e k s E s' -> seen e s k m A L -> usable m -> seen e s' k m' A' L' ->
  In l (book_of A sd) -> In y (book_of A' sd) -> (forall z, In z (book_of A sd) -> l_key z <> l_key y) -> l_price y = l_price l -> outranks sd (l_key l) (l_key y).
Proof. exact later_ranks_behind. Qed.
Print Assumptions C63_later_ranks_behind.
(** The id given to an order (C46) says its price and its number. *)
Theorem C63_rank_read : forall sd p n, 0 <= n < B64 -> price_of (numbered sd p n) = p /\ number_of sd (numbered sd p n) = n.
Proof. exact rank_read. Qed.
Print Assumptions C63_rank_read.

(** Alice's ask of 4 lots at 50 rests; she adds one of 3 lots at the same price; Bob buys 6 lots.  The second ask
    trades, and what says that the first is gone comes before. *)
Example C63_case : history ex_env w3 /\ stretch ex_env 10 w3 (([] ++ pr_E1) ++ pr_E2) pr2 /\ seen ex_env w3 10 w3_m w3_A w3_L /\ usable w3_m /\ In first_ask (book_of w3_A Ask) /\
  ([] ++ pr_E1) ++ pr_E2 = firstn 3 pr_E2 ++ nth 3 pr_E2 (EvOut Ask true 0 0 0 0 0 0) :: skipn 4 pr_E2 /\
  resting_trade Ask (nth 3 pr_E2 (EvOut Ask true 0 0 0 0 0 0)) /\ outranks Ask (l_key first_ask) (ev_id (nth 3 pr_E2 (EvOut Ask true 0 0 0 0 0 0))) /\ ended Ask first_ask (firstn 3 pr_E2) /\ ~ ended Ask first_ask (firstn 1 pr_E2).
Proof.
  split; [exact w3_h|]. split; [exact pr2_stretch|]. split; [exact w3_seen|]. split; [exact w3_usable|]. split; [vm_compute; auto|]. split; [vm_compute; reflexivity|]. split; [vm_compute; auto|].
  split; [right; vm_compute; auto|]. split; [exists (nth 1 pr_E2 (EvOut Ask true 0 0 0 0 0 0)); vm_compute; auto|]. intros (w & [<-|[]] & _ & F). vm_compute in F. discriminate.
Qed.
Example C63_later_case : history ex_env w3 /\ stretch ex_env 10 w3 ([] ++ pr_E1) pr1 /\ seen ex_env w3 10 w3_m w3_A w3_L /\ usable w3_m /\ seen ex_env pr1 10 pr1_m pr1_A pr1_L /\
  In first_ask (book_of w3_A Ask) /\ In second_ask (book_of pr1_A Ask) /\ (forall z, In z (book_of w3_A Ask) -> l_key z <> l_key second_ask) /\ l_price second_ask = l_price first_ask.
Proof.
  split; [exact w3_h|]. split; [exact pr1_stretch|]. split; [exact w3_seen|]. split; [exact w3_usable|]. split; [exact pr1_seen|]. split; [vm_compute; auto|]. split; [vm_compute; auto|].
  split; [|vm_compute; reflexivity]. intros z [<-|[<-|[]]]; vm_compute; discriminate.
Qed.
