(** What leaving a market means: the vocabulary of the exit property.  Nothing here is part of the program. *)
From Verif Require Import Base Fees ListSum Queue Codec Critbit CritbitSlab Market Matching Slots MatchSteps Ledger MatchSpec Core Instr Store Process StoreProofs World WorldSpec.

(** [n] transactions, one after the other and all successful, signed by nobody outside [who]. *)
Inductive run (e : env) (c : clock) (who : Z -> Prop) : nat -> store -> store -> Prop :=
| run_nil s : run e c who 0 s s
| run_tx s i ms s1 n s' : wf_instr i -> (forall a, In a ms -> mk_signer a = true -> who (mk a)) ->
    process e c s i ms = Ok s1 -> run e c who n s1 s' -> run e c who (S n) s s'.

(** Events of account [x]; orders of everyone else. *)
Definition own_events (x : Z) (evs : list event_view) : list event_view := filter (fun v => ev_owner v =? x) evs.
Definition others (x : Z) (bk : list leaf) : list leaf := filter (fun l => negb (l_owner l =? x)) bk.
(** What account [x] is worth: its totals once its unconsumed events are booked. *)
Definition coin_due (x : Z) (oo : open_orders) (A : astate) : Z := oo_coin_total oo + zsum ev_coin (own_events x (a_evs A)).
Definition pc_due (x : Z) (oo : open_orders) (A : astate) : Z := oo_pc_total oo + zsum ev_pc (own_events x (a_evs A)).
Definition rebates_due (x : Z) (oo : open_orders) (A : astate) : Z := oo_rebates oo + zsum ev_rebate (own_events x (a_evs A)).

(** Account [x] has left: it is closed, its rent is at [dest], everything it was worth is in the two
    wallets, its orders are off the book; the orders of others stand and their accounts differ only by
    their own unconsumed events, each booked once; no other account changed. *)
Definition left_market (e : env) (s s' : store) (k : Z) (m : market) (A : astate) (L : list (Z * open_orders)) (x : Z) (oo : open_orders) (cw pw dest : Z) : Prop :=
  exists m' L',
    m' = set_counters m (m_coin_deposits m - coin_due x oo A) (m_pc_deposits m - pc_due x oo A) (m_pc_fees m + rebates_due x oo A) (m_rebates m - rebates_due x oo A) /\
    seen e s' k m' (mkA (others x (a_bids A)) (others x (a_asks A)) []) L' /\
    (forall y, In y (map fst L') <-> y <> x /\ In y (map fst L)) /\
    (forall y oy, y <> x -> In (y, oy) L -> exists oy', In (y, oy') L' /\ booked (own_events y (a_evs A)) oy oy') /\
    (exists oo', dexd e s' x = Some (DOO oo') /\ oo_flags oo' = AF_Closed) /\
    a_lamports (sget s' x) = 0 /\ a_lamports (sget s' dest) = a_lamports (sget s dest) + a_lamports (sget s x) /\
    moves s s' [(m_coin_vault m, cw, coin_due x oo A); (m_pc_vault m, pw, pc_due x oo A)] /\
    only s s' ([k; x; dest; m_event_q m; m_bids m; m_asks m; m_coin_vault m; m_pc_vault m; cw; pw] ++ map ev_owner (a_evs A)).

(** Whose signature event processing takes: the crank authority's on a market that has one, and else nobody's. *)
Definition cranker (m : market) (z : Z) : Prop := needs_crank_authority m /\ z = m_crank_auth m.
(** Whose signatures leaving takes: the owner's, and the crank authority's on a market that has one. *)
Definition leaver (m : market) (w : Z) (z : Z) : Prop := z = w \/ (needs_crank_authority m /\ z = m_crank_auth m).
Definition own_count (x : Z) (A : astate) : nat := (length (own_orders x (a_bids A)) + length (own_orders x (a_asks A)))%nat.
