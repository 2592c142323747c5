(** What the book and the event queue hold for each account: the vocabulary in which the accounting
    and slot properties are stated.  Nothing here is part of the program. *)
From Verif Require Import Base Fees Critbit CritbitProofs Codec ListSum MatchSteps.

Definition ev_owner (v : event_view) : Z :=
  match v with EvFill _ _ _ _ _ _ w _ _ _ => w | EvOut _ _ _ _ _ w _ _ => w end.
Definition ev_slot (v : event_view) : Z :=
  match v with EvFill _ _ _ _ _ _ _ s _ _ => s | EvOut _ _ _ _ _ _ s _ => s end.
Definition ev_id (v : event_view) : Z :=
  match v with EvFill _ _ _ _ _ o _ _ _ _ => o | EvOut _ _ _ _ o _ _ _ => o end.
Definition ev_side (v : event_view) : side :=
  match v with EvFill sd _ _ _ _ _ _ _ _ _ => sd | EvOut sd _ _ _ _ _ _ _ => sd end.
(** The event that ends an order's life. *)
Definition ev_final (v : event_view) : bool :=
  match v with EvOut _ _ _ still _ _ _ _ => still =? 0 | _ => false end.

(** Tokens an unconsumed event still holds locked for its owner. *)
Definition ev_lock_coin (v : event_view) : Z :=
  match v with
  | EvFill Ask true paid _ _ _ _ _ _ _ => paid
  | EvOut Ask true unlocked _ _ _ _ _ => unlocked
  | _ => 0
  end.
Definition ev_lock_pc (v : event_view) : Z :=
  match v with
  | EvFill Bid true paid _ _ _ _ _ _ _ => paid
  | EvOut Bid true unlocked _ _ _ _ _ => unlocked
  | _ => 0
  end.
(** What consuming the event adds to its owner's totals. *)
Definition ev_coin (v : event_view) : Z :=
  match v with
  | EvFill Bid true _ received _ _ _ _ _ _ => received
  | EvFill Ask true paid _ _ _ _ _ _ _ => - paid
  | _ => 0
  end.
Definition ev_pc (v : event_view) : Z :=
  match v with
  | EvFill Bid true paid _ _ _ _ _ _ _ => - paid
  | EvFill Ask true _ received _ _ _ _ _ _ => received
  | _ => 0
  end.
(** Referrer share still to be attributed to the taker. *)
Definition ev_rebate (v : event_view) : Z :=
  match v with EvFill _ false _ _ fee _ _ _ _ _ => fee / 5 | _ => 0 end.
(** Amounts that leave a maker's totals when the event is consumed. *)
Definition ev_paid_coin (v : event_view) : Z :=
  match v with EvFill Ask true paid _ _ _ _ _ _ _ => paid | _ => 0 end.
Definition ev_paid_pc (v : event_view) : Z :=
  match v with EvFill Bid true paid _ _ _ _ _ _ _ => paid | _ => 0 end.

Definition mine {A} (own : A -> Z) (k : Z) (f : A -> Z) (x : A) : Z := if own x =? k then f x else 0.

Section Lots.
Variables cl pl : Z.
Definition coin_of (l : leaf) : Z := l_qty l * cl.
Definition pc_of (l : leaf) : Z := l_qty l * l_price l * pl.
(** Tokens locked for open-orders account [k] by its resting orders and its unconsumed events. *)
Definition locked_coin (k : Z) (A : astate) : Z :=
  zsum (mine l_owner k coin_of) (a_asks A) + zsum (mine ev_owner k ev_lock_coin) (a_evs A).
Definition locked_pc (k : Z) (A : astate) : Z :=
  zsum (mine l_owner k pc_of) (a_bids A) + zsum (mine ev_owner k ev_lock_pc) (a_evs A).
End Lots.

Definition book_of (A : astate) (s : side) : list leaf := match s with Bid => a_bids A | Ask => a_asks A end.
Definition other (s : side) : side := match s with Bid => Ask | Ask => Bid end.
Definition at_slot (k i : Z) (l : leaf) : Prop := l_owner l = k /\ l_slot l = i.
Definition evb (k i : Z) (v : event_view) : bool := (ev_owner v =? k) && (ev_slot v =? i).
Definition slot_events (k i : Z) (A : astate) : list event_view := filter (evb k i) (a_evs A).

(** Slot [i] of account [k] is not in use. *)
Definition slot_free (k i : Z) (A : astate) : Prop :=
  (forall s l, In l (book_of A s) -> ~ at_slot k i l) /\ slot_events k i A = [].
(** It holds order [id]: either the order rests and no event ends it, or it no longer rests and the
    last event queued for it, and no other, ends it. *)
Definition slot_busy (k i id : Z) (sd : side) (A : astate) : Prop :=
  (forall v, In v (slot_events k i A) -> ev_id v = id /\ ev_side v = sd) /\
  (forall l, In l (book_of A sd) -> at_slot k i l -> l_key l = id) /\
  (forall l, In l (book_of A (other sd)) -> ~ at_slot k i l) /\
  (((exists l, In l (book_of A sd) /\ at_slot k i l) /\ forall v, In v (slot_events k i A) -> ev_final v = false) \/
   ((forall l, In l (book_of A sd) -> ~ at_slot k i l) /\
    exists E f, slot_events k i A = E ++ [f] /\ ev_final f = true /\ forall v, In v E -> ev_final v = false)).
(** It holds an order that is being matched. *)
Definition slot_flight (k i id : Z) (sd : side) (A : astate) : Prop :=
  (forall v, In v (slot_events k i A) -> ev_id v = id /\ ev_side v = sd /\ ev_final v = false) /\
  (forall s l, In l (book_of A s) -> ~ at_slot k i l).
