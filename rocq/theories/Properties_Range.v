(** C24: arithmetic never wraps within the guard of World.v, and can wrap outside it. *)
From Verif Require Import Base Fees ListSum Codec Critbit CritbitSlab Market Slots MatchSteps Ledger MatchSpec Core Instr Store Process StoreProofs World WorldSpec WorldRange WorldSupply WorldExample ExampleSupply ExampleWrap.

(** Every counter of the market, every balance and the worth of every resting order is a 64-bit number. *)
Theorem C24_counters_in_range : forall e, env_ok e -> forall s k m A L, history e s -> seen e s k m A L -> usable m ->
  (0 <= m_coin_deposits m < B64 /\ 0 <= m_pc_deposits m < B64 /\ 0 <= m_pc_fees m < B64 /\ 0 <= m_rebates m < B64) /\
  (forall x oo, In (x, oo) L -> 0 <= oo_coin_free oo <= oo_coin_total oo /\ oo_coin_total oo < B64 /\
     0 <= oo_pc_free oo <= oo_pc_total oo /\ oo_pc_total oo < B64 /\ 0 <= oo_rebates oo < B64) /\
  (forall sd l, In l (book_of A sd) -> 0 < l_qty l /\ 0 < l_price l /\ 0 < worth m sd l < B64).
Proof. exact counters_in_range. Qed.
Print Assumptions C24_counters_in_range.
(** The sums over unbounded integers: what rests in the books and all free balances fit into the deposits. *)
Theorem C24_deposits_cover_the_books : forall e, env_ok e -> forall s k m A L, history e s -> seen e s k m A L -> usable m ->
  zsum (worth m Ask) (a_asks A) + total oo_coin_free L <= m_coin_deposits m /\ zsum (worth m Bid) (a_bids A) + total oo_pc_free L <= m_pc_deposits m.
Proof. exact deposits_cover. Qed.
Print Assumptions C24_deposits_cover_the_books.

(** The guard follows from the token accounts alone: if no vault of market k ever holds more than K k, and that many
    times the places of its event queue and once more is below 2^64, then nothing the guard speaks of can overflow, so every
    theorem about guarded histories holds of such histories. *)
Theorem C24_small_vaults_suffice : forall e, env_ok e -> forall K s, reachable e (modest e K) s -> history e s /\ (modest e K s -> no_overflow e s).
Proof. intros e EO K s H. split; [exact (modest_suffices e EO K s H)|exact (modest_no_overflow e EO K s H)]. Qed.
Print Assumptions C24_small_vaults_suffice.
(** Without the guard the claim is false: three lots of 2^62 exist, traders own less than 2^64 of the coin and of the
    quote currency together with the vaults, yet consuming a fill wraps an account's total.  It then has more free
    coin than coin, and its owner's settlement fails. *)
Definition supply (s : store) (mint : Z) : Z :=
  zsum (fun a => match token_at s (fst a) with Some t => if t_mint t =? mint then t_amount t else 0 | None => 0 end) s.
Theorem C24_wraps_without_the_guard_refuted : exists e s k m A L x oo, env_ok e /\ reachable e (fun _ => True) s /\ seen e s k m A L /\ usable m /\
  supply s (m_coin_mint m) < B64 /\ supply s (m_pc_mint m) < B64 /\ In (x, oo) L /\ oo_coin_total oo < oo_coin_free oo /\
  oo_coin_total oo = 0 /\ zsum (worth m Ask) (own_orders x (a_asks A)) > 0 /\
  process e ex_clock s ISettleFunds (ms_settle x (oo_owner oo) 102 103 []) = Panic.
Proof.
  exists ex_env, o7, 10, o7_m, o7_A, o7_L, 101, (snd (nth 0 o7_L (0, oo_zero))). split; [exact ex_env_ok|]. split; [exact o7_h|]. split; [exact o7_seen|]. split; [exact o7_usable|].
  split; [vm_compute; reflexivity|]. split; [vm_compute; reflexivity|]. split; [left; vm_compute; reflexivity|]. split; [vm_compute; reflexivity|]. split; [vm_compute; reflexivity|].
  split; vm_compute; reflexivity.
Qed.
Print Assumptions C24_wraps_without_the_guard_refuted.

(** Vaults of at most 10^15 units: a market with both books filled, fills in the queue and events of more than 10^17 possible. *)
Example C24_small_case : exists e K s k m A L, env_ok e /\ reachable e (modest e K) s /\ modest e K s /\ seen e s k m A L /\ usable m /\
  length (a_bids A) = 1%nat /\ length (a_asks A) = 1%nat /\ (2 <= length (a_evs A))%nat /\ K k = 1000000000000000.
Proof.
  exists ex_env, ex_cap, w4, 10, w4_m, w4_A, w4_L. split; [exact ex_env_ok|]. split; [exact w4_modestly|]. split; [apply modest_ok; vm_compute; reflexivity|]. split; [exact w4_seen|]. split; [exact w4_usable|].
  split; [vm_compute; reflexivity|]. split; [vm_compute; reflexivity|]. split; [apply PeanoNat.Nat.leb_le; vm_compute; reflexivity|reflexivity].
Qed.
(** A trading market within the guard: both books filled, two accounts, free and locked balances. *)
Example C24_case : exists e s k m A L, env_ok e /\ history e s /\ no_overflow e s /\ seen e s k m A L /\ usable m /\
  length (a_bids A) = 1%nat /\ length (a_asks A) = 1%nat /\ length L = 2%nat /\ m_coin_deposits m = 60 /\ m_pc_deposits m = 999920.
Proof.
  exists ex_env, w4, 10, w4_m, w4_A, w4_L. split; [exact ex_env_ok|]. split; [exact w4_h|]. split; [apply guard_ok; vm_compute; reflexivity|]. split; [exact w4_seen|]. split; [exact w4_usable|].
  vm_compute. repeat split; reflexivity.
Qed.
