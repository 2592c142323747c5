(** Properties of every state of every history (C13, C21, C22, C23, C25).  [history] and [seen] are
    defined in WorldSpec.v, the value of an event ([ev_coin], [ev_pc], [ev_rebate], [ev_lock_coin],
    [ev_lock_pc]) and [slot_events] in Ledger.v. *)
From Verif Require Import Base Fees ListSum Codec Critbit CritbitSlab Market Slots MatchSteps Ledger MatchSpec Core Instr Store Process StoreProofs World WorldSpec WorldFacts WorldExample.

(** Every market of every history can be read off in this way, so the theorems below speak about all of them. *)
Theorem C21_every_market_is_seen : forall e, env_ok e -> forall s k m,
  history e s -> dexd e s k = Some (DMarket m) -> usable m -> exists A L, seen e s k m A L.
Proof. exact market_seen. Qed.
Print Assumptions C21_every_market_is_seen.

(** C13 *)
Theorem C13_never_crossed : forall e, env_ok e -> forall s k m A L,
  history e s -> seen e s k m A L -> usable m -> uncrossed (a_bids A) (a_asks A).
Proof. exact never_crossed. Qed.
Print Assumptions C13_never_crossed.

(** C21 *)
Theorem C21_coin_conserved : forall e, env_ok e -> forall s k m A L,
  history e s -> seen e s k m A L -> usable m ->
  total oo_coin_total L + zsum ev_coin (a_evs A) = m_coin_deposits m /\
  0 <= total oo_coin_free L <= m_coin_deposits m /\ holds s (m_coin_vault m) (m_coin_deposits m) /\ program_owned e s k m (m_coin_vault m).
Proof. exact coin_conserved. Qed.
Print Assumptions C21_coin_conserved.

(** C22 *)
Theorem C22_pc_conserved : forall e, env_ok e -> forall s k m A L,
  history e s -> seen e s k m A L -> usable m ->
  total oo_pc_total L + zsum ev_pc (a_evs A) = m_pc_deposits m /\
  0 <= total oo_pc_free L <= m_pc_deposits m /\ 0 <= total oo_rebates L + zsum ev_rebate (a_evs A) <= m_rebates m /\
  holds s (m_pc_vault m) (m_pc_deposits m + m_pc_fees m + m_rebates m + (if m_coin_vault m =? m_pc_vault m then m_coin_deposits m else 0)) /\
  program_owned e s k m (m_pc_vault m).
Proof. exact pc_conserved. Qed.
Print Assumptions C22_pc_conserved.

(** C23 *)
Theorem C23_locked_is_resting_plus_pending : forall e, env_ok e -> forall s k m A L,
  history e s -> seen e s k m A L -> usable m -> forall x oo, In (x, oo) L ->
  0 <= oo_coin_free oo <= oo_coin_total oo /\ oo_coin_total oo < B64 /\ 0 <= oo_pc_free oo <= oo_pc_total oo /\ oo_pc_total oo < B64 /\
  oo_coin_total oo - oo_coin_free oo = zsum (worth m Ask) (own_orders x (a_asks A)) + zsum ev_lock_coin (filter (fun v => ev_owner v =? x) (a_evs A)) /\
  oo_pc_total oo - oo_pc_free oo = zsum (worth m Bid) (own_orders x (a_bids A)) + zsum ev_lock_pc (filter (fun v => ev_owner v =? x) (a_evs A)).
Proof. exact locked_exact. Qed.
Print Assumptions C23_locked_is_resting_plus_pending.

(** C25 *)
Theorem C25_slots_and_book_agree : forall e, env_ok e -> forall s k m A L,
  history e s -> seen e s k m A L -> usable m ->
  (forall sd l, In l (book_of A sd) -> exists oo, In (l_owner l, oo) L /\ 0 <= l_slot l < 128 /\
     is_free oo (l_slot l) = false /\ order_at oo (l_slot l) = l_key l /\ side_at oo (l_slot l) = sd /\ cid_at oo (l_slot l) = l_cid l) /\
  (forall v, In v (a_evs A) -> exists oo, In (ev_owner v, oo) L /\ 0 <= ev_slot v < 128 /\
     is_free oo (ev_slot v) = false /\ order_at oo (ev_slot v) = ev_id v /\ side_at oo (ev_slot v) = ev_side v) /\
  (forall x oo i, In (x, oo) L -> 0 <= i < 128 -> is_free oo i = false ->
     let resting := exists l, In l (book_of A (side_at oo i)) /\ l_key l = order_at oo i /\ l_owner l = x /\ l_slot l = i in
     let ending := exists E f, slot_events x i A = E ++ [f] /\ ev_final f = true /\ forall v, In v E -> ev_final v = false in
     (resting /\ forall v, In v (slot_events x i A) -> ev_final v = false) \/ (~ resting /\ ending)) /\
  (forall sd sd' l l', In l (book_of A sd) -> In l' (book_of A sd') -> l_owner l = l_owner l' -> l_slot l = l_slot l' -> sd = sd' /\ l = l') /\
  (forall x, zlen (own_orders x (a_bids A)) + zlen (own_orders x (a_asks A)) <= 128).
Proof. exact slots_agree. Qed.
Print Assumptions C25_slots_and_book_agree.

(** A history meeting all hypotheses: one resting bid, one resting ask, four events waiting (two fills), two accounts. *)
Example C13_C21_C22_C23_C25_case : exists e s k m A L, env_ok e /\ history e s /\ seen e s k m A L /\ usable m /\
  map l_price (a_bids A) = [55] /\ map l_price (a_asks A) = [60] /\ length (a_evs A) = 4%nat /\ map fst L = [101; 111] /\
  total oo_coin_total L = 100 /\ zsum ev_coin (a_evs A) = -40 /\ m_coin_deposits m = 60 /\
  total oo_pc_total L = 799920 /\ zsum ev_pc (a_evs A) = 200000 /\ m_pc_deposits m = 999920.
Proof.
  exists ex_env, w4, 10, w4_m, w4_A, w4_L. split; [exact ex_env_ok|]. split; [exact w4_h|]. split; [exact w4_seen|]. split; [exact w4_usable|].
  vm_compute. repeat split; reflexivity.
Qed.
