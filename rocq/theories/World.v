(** Histories: what can happen on the chain around the program.  States are stores; a transaction runs
    one instruction; between transactions other programs may do anything the runtime and the token
    program let them do to accounts they control. *)
From Verif Require Import Base Fees ListSum Queue QueueProofs Codec Critbit Market Matching Core Instr InstrProofs Store Process StoreProofs Ledger.

Section World.
Variable e : env.

(** A key the program can sign for. *)
Definition is_pda (p : Z) : Prop := exists n k, e_pda e n k = Some p.
(** Derived addresses of different markets differ; the program ids are three different keys. *)
Record env_ok : Prop := mkEnvOk {
  eo_pda : forall n1 k1 n2 k2 p, e_pda e n1 k1 = Some p -> e_pda e n2 k2 = Some p -> k1 = k2;
  eo_spl : e_prog e <> spl_id;
  eo_sys : e_prog e <> 0 }.
(** Nobody but the program signs for a derived address. *)
Definition legal (ms : list meta) : Prop := forall a, In a ms -> mk_signer a = true -> ~ is_pda (mk a).

Definition amounts_ok (s : store) : Prop := forall k t, token_at s k = Some t -> u64 (t_amount t).
(** The state before the program ran: its accounts, if any, are blank. *)
Record genesis (s : store) : Prop := mkGenesis {
  ge_blank : forall k d, dexd e s k = Some d -> d = DZero;
  ge_sys : dexd e s 0 = None;
  ge_amt : amounts_ok s }.
(** A closed open-orders account. *)
Definition is_closed (d : adata) : Prop := exists oo, d = DOO oo /\ oo_flags oo = AF_Closed.
(** A token account only its owner can take from. *)
Definition locked_token (t : token) : Prop := t_delegate t = None /\ t_close t = None.
(** What other programs and the runtime may do: they cannot write the dex's accounts; blank and closed
    accounts may be taken away and blank ones appear; token accounts of a derived address can only
    receive (and be frozen or thawed by the mint's freeze authority). *)
Record rely (s s' : store) : Prop := mkRely {
  re_dex : forall k, dexd e s' k = dexd e s k \/
    (dexd e s' k = None /\ exists d, dexd e s k = Some d /\ (d = DZero \/ is_closed d)) \/
    (dexd e s' k = Some DZero /\ dexd e s k = None /\ k <> 0);
  re_tok : forall k t, token_at s k = Some t -> is_pda (t_owner t) -> locked_token t ->
    exists t', token_at s' k = Some t' /\ t_owner t' = t_owner t /\ t_mint t' = t_mint t /\ locked_token t' /\
      t_amount t <= t_amount t' /\ a_len (sget s' k) = a_len (sget s k);
  re_amt : amounts_ok s' }.

(** The runtime's limit on the size of an account (10 MiB on Solana; any bound below 2^63 will do). *)
Definition sized (s : store) : Prop := forall k, a_len (sget s k) <= I64_MAX.
(** Histories in which every transaction starts from a state satisfying [G]. *)
Inductive reachable (G : store -> Prop) : store -> Prop :=
| reach_start s : genesis s -> reachable G s
| reach_tx s c b ms : reachable G s -> G s -> sized s -> is_bytes b -> legal ms -> reachable G (transact e c s b ms)
| reach_env s s' : reachable G s -> rely s s' -> reachable G s'.

(** Lot sizes are positive and the two books are different accounts.  InitializeMarket checks
    neither; on any other market no order can rest on both sides. *)
Definition usable (m : market) : Prop := 0 < m_coin_lot m /\ 0 < m_pc_lot m /\ m_bids m <> m_asks m.
(** The guard.  Counters that the program adds to without a check stay below 2^64: for each usable
    market the deposits together with what makers have paid in fills not yet consumed; and the sequence
    number of orders has room for the next instruction. *)
Definition pending_paid (f : event_view -> Z) (q : queue event) : Z :=
  zsum (fun ev => match event_as_view ev with Ok v => f v | _ => 0 end) (q_list q).
Definition no_overflow (s : store) : Prop := forall k m, dexd e s k = Some (DMarket m) -> usable m ->
  (forall q, dexd e s (m_event_q m) = Some (DEventQ q) ->
     m_coin_deposits m + pending_paid ev_paid_coin q < B64 /\ m_pc_deposits m + pending_paid ev_paid_pc q < B64) /\
  (forall c seq, dexd e s (m_req_q m) = Some (DReqQ (c, seq)) -> seq + 16 < B64).
End World.
