(** What others can do to a trader who signs nothing.  Nothing here is part of the program. *)
From Verif Require Import Base Fees Critbit CritbitSlab Codec ListSum Market Matching Ledger MatchSteps MatchSpec Core Instr InstrProofs Store Process StoreProofs World WorldSpec LifeSpec.

(** A stretch of a history in which [w] signs no transaction. *)
Inductive absent (e : env) (k w : Z) (s : store) : list event_view -> store -> Prop :=
| absent_now : absent e k w s [] s
| absent_tx E s1 c b ms E1 : absent e k w s E s1 -> no_overflow e s1 -> sized s1 -> is_bytes b -> legal e ms -> ~ signed_by ms w ->
    queued e k s1 (transact e c s1 b ms) E1 -> absent e k w s (E ++ E1) (transact e c s1 b ms)
| absent_env E s1 s2 : absent e k w s E s1 -> rely e s1 s2 -> absent e k w s E s2.

(** What an event still to be processed will bring to the account it belongs to, or take from it, in coin and in
    quote currency: the trade of a resting order moves both; every other event moves nothing. *)
Definition coin_move (v : event_view) : Z :=
  match v with EvFill Bid true _ received _ _ _ _ _ _ => received | EvFill Ask true paid _ _ _ _ _ _ _ => - paid | _ => 0 end.
Definition pc_move (v : event_view) : Z :=
  match v with EvFill Bid true paid _ _ _ _ _ _ _ => - paid | EvFill Ask true _ received _ _ _ _ _ _ => received | _ => 0 end.
Definition events_of (x : Z) (vs : list event_view) : list event_view := filter (fun v => ev_owner v =? x) vs.
(** All that belongs to account [x] on the market. *)
Definition coin_claim (x : Z) (oo : open_orders) (A : astate) : Z := oo_coin_total oo + zsum coin_move (events_of x (a_evs A)).
Definition pc_claim (x : Z) (oo : open_orders) (A : astate) : Z := oo_pc_total oo + zsum pc_move (events_of x (a_evs A)).
(** What can be withdrawn at once has not become less. *)
Definition no_less (oo oo' : open_orders) : Prop :=
  oo_coin_free oo <= oo_coin_free oo' /\ oo_pc_free oo <= oo_pc_free oo' /\ oo_rebates oo <= oo_rebates oo'.
(** Lots and quote currency over the listed orders, [n] lots of each by its id. *)
Definition lots (n : Z -> Z) (ls : list leaf) : Z := zsum (fun l => n (l_key l)) ls.
Definition cost (n : Z -> Z) (ls : list leaf) : Z := zsum (fun l => n (l_key l) * l_price l) ls.
(** Of each listed order, [n] lots were there to trade. *)
Definition within (A' : astate) (sd : side) (n : Z -> Z) (ls : list leaf) : Prop :=
  forall l, In l ls -> exists q', rests sd l A' q' /\ 0 <= n (l_key l) <= l_qty l - q'.
