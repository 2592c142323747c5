(** The client-side builders of instructions, dex/src/instruction.rs:666-1169.
    Their [Result] is always [Ok], so a builder is a total function here. *)
From Verif Require Import Base Codec Core Instr Store.

(** [AccountMeta] and [Instruction] of solana-program. *)
Record ameta := mkAM { am_key : Z; am_signer : bool; am_writable : bool }.
Record cinstr := mkCI { ci_program : Z; ci_data : bytes; ci_accounts : list ameta }.
(** [AccountMeta::new(k, false)], [AccountMeta::new_readonly(k, false)], [AccountMeta::new_readonly(k, true)] *)
Definition rw (k : Z) : ameta := mkAM k false true.
Definition ro (k : Z) : ameta := mkAM k false false.
Definition sg (k : Z) : ameta := mkAM k true false.
(** sysvar::rent::ID, SysvarRent111111111111111111111111111111111 *)
Definition rent_id : Z := 36800195018552188505640875450300565088976979333758767909624563640727942847459.
Definition if_some {A} (o : option Z) (f : Z -> list A) : list A := match o with Some k => f k | None => [] end.

(** [instruction.rs:666-742] *)
Definition b_initialize_market (market prog coin_mint pc_mint coin_vault pc_vault : Z) (auth prune_auth crank_auth : option Z)
    (bids asks req_q event_q coin_lot pc_lot nonce dust : Z) : cinstr :=
  mkCI prog (pack (IInitMarket (mkInitIx coin_lot pc_lot 0 nonce dust)))
    ([rw market; rw req_q; rw event_q; rw bids; rw asks; rw coin_vault; rw pc_vault; ro coin_mint; ro pc_mint; ro rent_id] ++
     if_some auth (fun a => ro a :: if_some prune_auth (fun p => ro p :: if_some crank_auth (fun c => [ro c])))).
(** [instruction.rs:744-803] *)
Definition b_new_order (market oo req_q event_q bids asks payer owner coin_vault pc_vault spl rent : Z) (srm : option Z) (prog : Z)
    (sd : side) (price qty : Z) (ot : order_type) (cid : Z) (st : self_trade) (limit pc max_ts : Z) : cinstr :=
  mkCI prog (pack (INewOrderV3 (mkOrderIx sd price qty pc st ot cid limit max_ts)))
    ([rw market; rw oo; rw req_q; rw event_q; rw bids; rw asks; rw payer; sg owner; rw coin_vault; rw pc_vault; ro spl; ro rent] ++
     if_some srm (fun k => [ro k])).
(** [instruction.rs:805-831] *)
Definition b_match_orders (prog market req_q bids asks event_q coin_fee pc_fee limit : Z) : cinstr :=
  mkCI prog (pack (IMatchOrders limit)) [rw market; rw req_q; rw event_q; rw bids; rw asks; rw coin_fee; rw pc_fee].
(** [instruction.rs:833-858] *)
Definition b_consume_events (prog : Z) (oos : list Z) (market event_q coin_fee pc_fee limit : Z) : cinstr :=
  mkCI prog (pack (IConsumeEvents limit)) (map rw oos ++ [rw market; rw event_q; rw coin_fee; rw pc_fee]).
(** [instruction.rs:860-883] *)
Definition b_consume_events_permissioned (prog : Z) (oos : list Z) (market event_q auth limit : Z) : cinstr :=
  mkCI prog (pack (IConsumePermissioned limit)) (map rw oos ++ [rw market; rw event_q; sg auth]).
(** [instruction.rs:885-910] *)
Definition b_cancel_order (prog market bids asks oo owner event_q : Z) (sd : side) (id : Z) : cinstr :=
  mkCI prog (pack (ICancelV2 sd id)) [rw market; rw bids; rw asks; rw oo; sg owner; rw event_q].
(** [instruction.rs:912-945] *)
Definition b_settle_funds (prog market spl oo owner coin_vault coin_wallet pc_vault pc_wallet : Z) (referrer : option Z) (vault_signer : Z) : cinstr :=
  mkCI prog (pack ISettleFunds)
    ([rw market; rw oo; sg owner; rw coin_vault; rw pc_vault; rw coin_wallet; rw pc_wallet; ro vault_signer; ro spl] ++
     if_some referrer (fun k => [rw k])).
(** [instruction.rs:947-971] *)
Definition b_cancel_by_client_id (prog market bids asks oo owner event_q cid : Z) : cinstr :=
  mkCI prog (pack (ICancelByCid cid)) [rw market; rw bids; rw asks; rw oo; sg owner; rw event_q].
(** [instruction.rs:973-997]; the ids are an array of eight *)
Definition b_cancel_by_client_ids (prog market bids asks oo owner event_q : Z) (cids : list Z) : cinstr :=
  mkCI prog (pack (ICancelByCids cids)) [rw market; rw bids; rw asks; rw oo; sg owner; rw event_q].
(** [instruction.rs:999-1014] *)
Definition b_disable_market (prog market auth : Z) : cinstr := mkCI prog (pack IDisableMarket) [rw market; sg auth].
(** [instruction.rs:1016-1039] *)
Definition b_sweep_fees (prog market pc_vault auth receiver vault_signer spl : Z) : cinstr :=
  mkCI prog (pack ISweepFees) [rw market; rw pc_vault; sg auth; rw receiver; ro vault_signer; ro spl].
(** [instruction.rs:1041-1096] *)
Definition b_send_take (market req_q event_q bids asks coin_wallet pc_wallet owner coin_vault pc_vault spl vault_signer : Z) (srm : option Z) (prog : Z)
    (sd : side) (price qty pc min_coin min_pc limit : Z) : cinstr :=
  mkCI prog (pack (ISendTake (mkTakeIx sd price qty pc min_coin min_pc limit)))
    ([rw market; rw req_q; rw event_q; rw bids; rw asks; rw coin_wallet; rw pc_wallet; sg owner; rw coin_vault; rw pc_vault; ro spl; ro vault_signer] ++
     if_some srm (fun k => [ro k])).
(** [instruction.rs:1098-1117] *)
Definition b_close_open_orders (prog oo owner dest market : Z) : cinstr := mkCI prog (pack ICloseOO) [rw oo; sg owner; rw dest; ro market].
(** [instruction.rs:1119-1141] *)
Definition b_init_open_orders (prog oo owner market : Z) (auth : option Z) : cinstr :=
  mkCI prog (pack IInitOO) ([rw oo; sg owner; ro market; ro rent_id] ++ if_some auth (fun a => [sg a])).
(** [instruction.rs:1143-1169] *)
Definition b_prune (prog market bids asks auth oo owner event_q limit : Z) : cinstr :=
  mkCI prog (pack (IPrune limit)) [rw market; rw bids; rw asks; sg auth; rw oo; ro owner; rw event_q].
